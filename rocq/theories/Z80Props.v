(** The instructions assembled mean to the processor what was written (C11). *)
From Verif Require Import Base BaseProofs State StorageModel OpcodeTables MainModel UtilsModel UtilsSpec UtilsProofs StorageSpec
  ParserSpec Knot ExportModel ExportSpec InstrSpec MatchSpec AsmSpec AsmRef AsmRun AsmProps Z80Spec.
#[local] Existing Instance no_params.
#[local] Existing Instance no_calls.

(** ** From values to bytes *)
Section Values.
Variable ez80 : bool.
(** The operand bytes for given values, by the wildcards only. *)
Fixpoint put (long : bool) (here size : Z) (ws : text) (vs : list Z) (bit : option Z) : option (list Z * option Z) :=
  match ws, vs with
  | [], [] => Some ([], bit)
  | c :: ws', v :: vs' =>
    if c =? ch "^" then if within 0 v 7 then put long here size ws' vs' (Some v) else None
    else match operand_bytes ez80 long here size c v, put long here size ws' vs' bit with
         | Some b, Some (r, x) => Some (b ++ r, x)
         | _, _ => None
         end
  | _, _ => None
  end.
Lemma put_of wraps fold t long here size : forall pat es bit b x,
  operands_bytes wraps ez80 fold t long here size pat es bit = Some (b, x) ->
  exists vs, map (val wraps fold here t) es = map Some vs /\ put long here size (filter is_wild pat) vs bit = Some (b, x).
Proof.
  induction pat as [|c pat IH]; intros es bit b x H; cbn [operands_bytes] in H.
  - destruct es; [|discriminate]. exists []. split; [reflexivity|exact H].
  - cbn [filter]. destruct (is_wild c) eqn:W; [|exact (IH es bit b x H)].
    destruct es as [|e es]; [discriminate|]. destruct (val wraps fold here t e) as [v|] eqn:V; [|discriminate].
    destruct (c =? ch "^") eqn:C.
    + destruct (within 0 v 7) eqn:R; [|discriminate]. destruct (IH es (Some v) b x H) as (vs & M & P). exists (v :: vs). cbn [map put]. rewrite V, M, C, R. now split.
    + destruct (operand_bytes ez80 long here size c v) as [b1|] eqn:B; [|discriminate]. destruct (operands_bytes _ _ _ _ _ _ _ pat es bit) as [(r, y)|] eqn:Q; [|discriminate].
      injection H as <- <-. destruct (IH es bit r y Q) as (vs & M & P). exists (v :: vs). cbn [map put]. rewrite V, M, C, B, P. now split.
Qed.
End Values.

(** ** Rows *)
Definition acc_ops := [zs "SUB"; zs "AND"; zs "XOR"; zs "OR"; zs "CP"].
Definition parts (name field : text) : list text :=
  let ps := pieces field in
  if existsb (eqbl name) acc_ops then match ps with [a; b] => if eqbl a (zs "A") then [b] else ps | _ => ps end else ps.
Definition sym (bit : Z) (p : text) : shape :=
  if eqbl p (zs "&") then SByte else if eqbl p (zs "*") then SWord else if eqbl p (zs "(&)") then SPortAt
  else if eqbl p (zs "(*)") then SWordAt else if eqbl p (zs "%") then SRel
  else if eqbl p (zs "(IX@)") then SIndex (zs "IX") else if eqbl p (zs "(IY@)") then SIndex (zs "IY")
  else if eqbl p (zs "^") then SBit bit else K p.
Definition part_wild (p : text) : text := filter is_wild p.
Definition shape_eqb (a b : shape) : bool :=
  match a, b with
  | K t, K u | SIndex t, SIndex u => eqbl t u
  | SByte, SByte | SWord, SWord | SPortAt, SPortAt | SWordAt, SWordAt | SRel, SRel => true
  | SBit m, SBit n | SRst m, SRst n => m =? n
  | _, _ => false
  end.
Fixpoint shapes_eqb (l m : list shape) : bool :=
  match l, m with [], [] => true | a :: l', b :: m' => shape_eqb a b && shapes_eqb l' m' | _, _ => false end.
Lemma shapes_eqb_eq l : forall m, shapes_eqb l m = true -> l = m.
Proof.
  induction l as [|a l IH]; intros [|b m] H; try discriminate; [reflexivity|]. cbn [shapes_eqb] in H. apply andb_true_iff in H as (H & Q). f_equal; [|now apply IH].
  destruct a, b; cbn [shape_eqb] in H; try discriminate; try reflexivity; f_equal; now (apply eqbl_eq || apply Z.eqb_eq).
Qed.
Definition canon (name : text) : text := if eqbl name (zs "SL1") then zs "SLL" else name.
Definition found (x : option ((text * list shape) * list Z)) (n : text) (l : list shape) (r : list Z) : bool :=
  match x with Some ((m, k), s) => eqbl m n && shapes_eqb k l && eqbl s r | None => false end.
Definition bits : list Z := [0; 1; 2; 3; 4; 5; 6; 7].
Definition has (c : Z) (t : text) : bool := memb c t.
Definition row_check (name : text) (i : instr) : bool :=
  let pat := i_args i in let ps := parts name pat in
  (if has (ch "#") pat then eqbl name (zs "RST") && eqbl pat (zs "#") && eqbl (opcode_bytes i) [] && negb (i_has_end i)
   else if eqbl name (zs "RST") then
     negb (i_has_end i) && eqbl (filter is_wild pat) [] &&
     match ps with
     | [a :: b :: _] => found (opcode_at (opcode_bytes i)) name [SRst (16 * hex_digit a + hex_digit b)] []
     | _ => false
     end
   else
     eqbl (filter is_wild pat) (flat_map part_wild ps) && forallb (fun p => match sym 0 p with K _ => eqbl (part_wild p) [] | _ => true end) ps &&
     if i_has_end i then
       (operands_width false pat =? (if has (ch "@") pat then 1 else 0)) &&
       let ok bit e := if has (ch "@") pat
          then match opcode_bytes i with [a; b] => ((a =? 0xDD) || (a =? 0xFD)) && (b =? 0xCB) && found (opcode_at [a; b; 0; e]) (canon name) (map (sym bit) ps) [0] | _ => false end
          else found (opcode_at (opcode_bytes i ++ [e])) (canon name) (map (sym bit) ps) [] in
       (if has (ch "^") pat then forallb (fun b => ok b (Z.lor (8 * b) (i_end i))) bits else ok 0 (i_end i))
     else negb (has (ch "^") pat) && found (opcode_at (opcode_bytes i)) (canon name) (map (sym 0) ps) []) &&
  (negb (has (ch "%") pat) || (zlen (opcode_bytes i) =? 1) && eqbl (filter is_wild pat) [ch "%"] && negb (i_has_end i)) &&
  Nat.leb (length (filter (Z.eqb (ch "^")) (filter is_wild pat))) 1.

Lemma rows_check : forallb (fun o => forallb (row_check (op_name o)) (op_instrs o)) opcode_list = true.
Proof. vm_compute. reflexivity. Qed.

Lemma put_no_bit ez80 long here size : forall ws vs bit b x, memb (ch "^") ws = false -> put ez80 long here size ws vs bit = Some (b, x) -> x = bit.
Proof.
  induction ws as [|c ws IH]; intros [|v vs] bit b x N H; cbn [put] in H; try discriminate; [congruence|].
  cbn [memb] in N. apply orb_false_iff in N as (N1 & N2). rewrite Z.eqb_sym in N1. rewrite N1 in H. destruct (operand_bytes _ _ _ _ _ _); [|discriminate].
  destruct (put _ _ _ _ ws vs bit) as [(r, y)|] eqn:Q; [|discriminate]. injection H as _ <-. eauto.
Qed.
Lemma signed_le v : -128 <= v <= 127 -> signed (v mod 256) = v.
Proof. intros R. unfold signed. destruct (Z_lt_ge_dec v 0); [replace (v mod 256) with (v + 256) by (rewrite <- (Z_mod_plus v 1 256) by lia; rewrite Z.mod_small; lia)|rewrite Z.mod_small by lia]; destruct (_ <? 128) eqn:E; lia. Qed.
Lemma word_le v : v mod 256 + 256 * (v / 256 mod 256) = v mod 65536.
Proof. pose proof (Z.mod_pos_bound v 256 eq_refl). change 65536 with (256 * 256). rewrite Z.rem_mul_r by lia. lia. Qed.
Lemma rel_target here v : -128 <= v mod 65536 - (here mod 65536 + 2) <= 127 -> (here + 2 + signed ((v mod 65536 - (here mod 65536 + 2)) mod 256)) mod 65536 = v mod 65536.
Proof.
  intros R. rewrite signed_le by exact R. replace (here + 2 + (v mod 65536 - (here mod 65536 + 2))) with (v mod 65536 + (here - here mod 65536)) by lia.
  rewrite Z.mod_eq with (a := here) by lia. replace (v mod 65536 + (here - (here - 65536 * (here / 65536)))) with (v mod 65536 + (here / 65536) * 65536) by lia.
  rewrite Z_mod_plus by lia. now rewrite Z.mod_mod.
Qed.
Lemma ob_n here size v b : operand_bytes false false here size 38 v = Some b -> b = [v mod 256].
Proof. unfold operand_bytes. cbn. destruct (within _ _ _); [|discriminate]. intros E. now injection E as <-. Qed.
Lemma ob_nn here size v b : operand_bytes false false here size 42 v = Some b -> b = [v mod 256; v / 256 mod 256].
Proof. unfold operand_bytes. cbn. intros E. now injection E as <-. Qed.
Lemma ob_at here size v b : operand_bytes false false here size 64 v = Some b -> b = [v mod 256] /\ -128 <= v <= 127.
Proof. unfold operand_bytes. cbn. destruct (within _ _ _) eqn:W; [|discriminate]. intros E. injection E as <-. unfold within in W. split; [reflexivity|lia]. Qed.
Lemma ob_rel here v b : operand_bytes false false here 2 37 v = Some b ->
  b = [(v mod 65536 - (here mod 65536 + 2)) mod 256] /\ -128 <= v mod 65536 - (here mod 65536 + 2) <= 127.
Proof.
  unfold operand_bytes. change (37 =? ch "*") with false. change (37 =? ch "&") with false. change (37 =? ch "%") with true. cbn beta iota zeta.
  set (d := v mod 65536 - (here mod 65536 + 2)). destruct (within (-128) d 127) eqn:W; [|discriminate]. intros E. injection E as <-. unfold within in W. split; [reflexivity|lia].
Qed.

Lemma parts_mean name here size bit : eqbl name (zs "RST") = false -> forall ps vs b0 b x,
  forallb (fun p => match sym 0 p with K _ => eqbl (part_wild p) [] | _ => true end) ps = true ->
  (length (filter (Z.eqb (ch "^")) (flat_map part_wild ps)) <= 1)%nat -> (In (ch "%") (flat_map part_wild ps) -> size = 2) ->
  put false false here size (flat_map part_wild ps) vs b0 = Some (b, x) -> (In (ch "^") (flat_map part_wild ps) -> x = Some bit) ->
  exists os, pieces_mean name ps vs = Some os /\ forall r, operands here (map (sym bit) ps) (b ++ r) = Some (os, r).
Proof.
  intros Nr. induction ps as [|p ps IH]; intros vs b0 b x Sy Cn Sz P Bt.
  - cbn in P. destruct vs; [|discriminate]. injection P as <- _. exists []. split; reflexivity.
  - cbn [forallb] in Sy. apply andb_true_iff in Sy as (Sp & Sy). cbn [flat_map] in Cn, Sz, P, Bt. cbn [pieces_mean map]. unfold piece. rewrite Nr.
    unfold sym in Sp. unfold sym at 1.
    destruct (eqbl p (zs "&")) eqn:E1; [|destruct (eqbl p (zs "*")) eqn:E2; [|destruct (eqbl p (zs "(&)")) eqn:E3; [|destruct (eqbl p (zs "(*)")) eqn:E4;
      [|destruct (eqbl p (zs "%")) eqn:E5; [|destruct (eqbl p (zs "(IX@)")) eqn:E6; [|destruct (eqbl p (zs "(IY@)")) eqn:E7; [|destruct (eqbl p (zs "^")) eqn:E8]]]]]]].
    all: try match goal with H : eqbl ?q (zs _) = true |- _ => apply eqbl_eq in H; subst q;
      match type of P with put _ _ _ _ (part_wild ?q ++ ?l) _ _ = _ => let w := eval vm_compute in (part_wild q) in
         change (part_wild q ++ l) with (w ++ l) in * end; cbn [app] in *;
      destruct vs as [|v vs]; [discriminate P|]; cbn [put] in P end.
    1-7: (match type of P with context [?c =? ch "^"] => change (c =? ch "^") with false in P end; cbn iota in P;
      match type of P with context [operand_bytes ?a ?b ?c ?d ?e ?f] => destruct (operand_bytes a b c d e f) as [b1|] eqn:B; [|discriminate] end;
      match type of P with context [put ?a ?b ?c ?d ?e ?f ?g] => destruct (put a b c d e f g) as [(r, y)|] eqn:Q; [|discriminate] end; injection P as <- <-;
      destruct (IH vs b0 r y Sy) as (os & M & O); [exact Cn|intros K; apply Sz; now right|exact Q|intros K; apply Bt; now right|]).
    + apply ob_n in B as ->. exists (Byte (v mod 256) :: os). rewrite M. split; [reflexivity|]. intros r0. cbn [operands app]. now rewrite O.
    + apply ob_nn in B as ->. exists (Word (v mod 65536) :: os). rewrite M. split; [reflexivity|]. intros r0. cbn [operands app]. now rewrite O, word_le.
    + apply ob_n in B as ->. exists (PortAt (v mod 256) :: os). rewrite M. split; [reflexivity|]. intros r0. cbn [operands app]. now rewrite O.
    + apply ob_nn in B as ->. exists (WordAt (v mod 65536) :: os). rewrite M. split; [reflexivity|]. intros r0. cbn [operands app]. now rewrite O, word_le.
    + rewrite (Sz (or_introl eq_refl)) in B. apply ob_rel in B as (-> & R). exists (Target (v mod 65536) :: os). rewrite M. split; [reflexivity|]. intros r0. cbn [operands app]. now rewrite O, rel_target.
    + apply ob_at in B as (-> & R). exists (Indexed (zs "IX") v :: os). rewrite M. split; [reflexivity|]. intros r0. cbn [operands app]. now rewrite O, signed_le.
    + apply ob_at in B as (-> & R). exists (Indexed (zs "IY") v :: os). rewrite M. split; [reflexivity|]. intros r0. cbn [operands app]. now rewrite O, signed_le.
    + change (94 =? ch "^") with true in P. cbn iota in P. destruct (within 0 v 7) eqn:W; [|discriminate].
      cbn [filter] in Cn. change (ch "^" =? 94) with true in Cn. cbn [length] in Cn.
      assert (Nb : memb (ch "^") (flat_map part_wild ps) = false).
      { destruct (memb (ch "^") (flat_map part_wild ps)) eqn:Mm; [|reflexivity]. exfalso. apply memb_In in Mm. assert (K : In (ch "^") (filter (Z.eqb (ch "^")) (flat_map part_wild ps))) by (apply filter_In; split; [exact Mm|apply Z.eqb_refl]).
        destruct (filter _ _); [contradiction|cbn in Cn; lia]. }
      pose proof (put_no_bit _ _ _ _ _ _ _ _ _ Nb P) as ->. pose proof (Bt (or_introl eq_refl)) as V. injection V as ->.
      destruct (IH vs (Some bit) b (Some bit) Sy) as (os & M & O); [lia|intros K; apply Sz; now right|exact P|intros _; reflexivity|].
      exists (BitNo bit :: os). rewrite M. split; [reflexivity|]. intros r0. cbn [operands]. now rewrite O.
    + apply eqbl_eq in Sp. rewrite Sp in Cn, Sz, P, Bt. cbn [app] in *. destruct (IH vs b0 b x Sy Cn Sz P Bt) as (os & M & O). exists (Fixed p :: os).
      split; [destruct vs; now rewrite M|]. intros r0. cbn [operands]. now rewrite O.
Qed.

(** ** Rows decode *)
Lemma opcode_app l x r s : opcode_at l = Some (x, r) -> opcode_at (l ++ s) = Some (x, r ++ s).
Proof.
  unfold opcode_at. destruct l as [|a l]; [discriminate|]. cbn [app]. destruct (a =? 0xCB).
  { destruct l as [|b l]; [discriminate|]. intros E. injection E as <- <-. reflexivity. }
  destruct (a =? 0xED). { destruct l as [|b l]; [discriminate|]. cbn [app]. destruct (opcode_ed b); [|discriminate]. intros E. injection E as <- <-. reflexivity. }
  destruct ((a =? 0xDD) || (a =? 0xFD)).
  - destruct l as [|b l]; [discriminate|]. cbn [app]. destruct (b =? 0xCB).
    + destruct l as [|d [|c l]]; try discriminate. intros E. injection E as <- <-. reflexivity.
    + destruct (opcode_unprefixed _ b); [|discriminate]. intros E. injection E as <- <-. reflexivity.
  - destruct (opcode_unprefixed None a); [|discriminate]. intros E. injection E as <- <-. reflexivity.
Qed.
Lemma opcode_index a b d e x s : (a =? 0xDD) || (a =? 0xFD) = true -> b =? 0xCB = true -> opcode_at [a; b; 0; e] = Some (x, [0]) ->
  opcode_at (a :: b :: d :: e :: s) = Some (x, d :: s).
Proof.
  intros A B. assert (N : a =? 0xCB = false /\ a =? 0xED = false) by lia. destruct N as (N1 & N2). unfold opcode_at. rewrite N1, N2, A, B. intros E. injection E as <-. reflexivity.
Qed.
Lemma found_eq x n l r : found x n l r = true -> x = Some ((n, l), r).
Proof.
  unfold found. destruct x as [[[m k] s]|]; [|discriminate]. intros H. apply andb_true_iff in H as (H & H3). apply andb_true_iff in H as (H1 & H2).
  apply eqbl_eq in H1. apply eqbl_eq in H3. apply shapes_eqb_eq in H2. congruence.
Qed.
(** A row of the table, with operand bytes and the last byte, decodes to what was written. *)
Definition tail_byte (i : instr) (bit : option Z) : list Z :=
  if i_has_end i then [match bit with Some x => Z.lor (8 * x) (i_end i) | None => i_end i end] else [].
Lemma put_bit ez80 long here size : forall ws vs b0 b x, put ez80 long here size ws vs b0 = Some (b, x) ->
  (exists v, x = Some v /\ 0 <= v <= 7) \/ x = b0.
Proof.
  induction ws as [|c ws IH]; intros [|v vs] b0 b x H; cbn [put] in H; try discriminate; [right; congruence|].
  destruct (c =? ch "^").
  - destruct (within 0 v 7) eqn:W; [|discriminate]. unfold within in W. destruct (IH _ _ _ _ H) as [K| ->]; [now left|left; exists v; split; [reflexivity|lia]].
  - destruct (operand_bytes _ _ _ _ _ _); [|discriminate]. destruct (put _ _ _ _ ws vs b0) as [(r, y)|] eqn:Q; [|discriminate]. injection H as _ <-. eauto.
Qed.
Lemma put_has_bit ez80 long here size : forall ws vs b0 b x, put ez80 long here size ws vs b0 = Some (b, x) -> In (ch "^") ws -> exists v, x = Some v /\ 0 <= v <= 7.
Proof.
  induction ws as [|c ws IH]; intros [|v vs] b0 b x H I; cbn [put] in H; try discriminate; [contradiction|].
  destruct (c =? ch "^") eqn:E.
  - destruct (within 0 v 7) eqn:W; [|discriminate]. unfold within in W. destruct (put_bit _ _ _ _ _ _ _ _ _ H) as [K| ->]; [exact K|exists v; split; [reflexivity|lia]].
  - destruct (operand_bytes _ _ _ _ _ _); [|discriminate]. destruct (put _ _ _ _ ws vs b0) as [(r, y)|] eqn:Q; [|discriminate]. injection H as _ <-. destruct I as [->|I]; [rewrite Z.eqb_refl in E; discriminate|]. eauto.
Qed.
Lemma put_len here size : forall ws vs b0 b x, Forall (fun c => is_wild c = true) ws -> put false false here size ws vs b0 = Some (b, x) -> zlen b = operands_width false ws.
Proof.
  induction ws as [|c ws IH]; intros [|v vs] b0 b x F H; cbn [put] in H; try discriminate; [injection H as <- _; reflexivity|].
  apply Forall_cons_iff in F as (Fc & F). change (operands_width false (c :: ws)) with (operand_width false c + operands_width false ws). destruct (c =? ch "^") eqn:E.
  - destruct (within 0 v 7) eqn:W; [|discriminate]. rewrite (IH _ _ _ _ F H). apply Z.eqb_eq in E. subst. reflexivity.
  - destruct (operand_bytes _ _ _ _ _ _) eqn:B; [|discriminate]. destruct (put _ _ _ _ ws vs b0) as [(r, y)|] eqn:Q; [|discriminate]. injection H as <- <-. rewrite zlen_app, (IH _ _ _ _ F Q). f_equal.
    apply (operand_len false false here size c v); auto. now apply Z.eqb_neq.
Qed.
Lemma filter_wild t : Forall (fun c => is_wild c = true) (filter is_wild t).
Proof. apply Forall_forall. intros c H. now apply filter_In in H. Qed.
Lemma operands_width_filter t : operands_width false (filter is_wild t) = operands_width false t.
Proof.
  induction t as [|c t IH]; [reflexivity|]. cbn [filter]. change (operands_width false (c :: t)) with (operand_width false c + operands_width false t). destruct (is_wild c) eqn:W.
  - change (operands_width false (c :: filter is_wild t)) with (operand_width false c + operands_width false (filter is_wild t)). lia.
  - rewrite IH. enough (operand_width false c = 0) by lia. unfold is_wild in W. unfold operand_width.
    assert (N : ~ In c (zs "*&%@#^")) by (intros H; apply memb_In in H; congruence). change (zs "*&%@#^") with [ch "*"; ch "&"; ch "%"; ch "@"; ch "#"; ch "^"] in N. simpl in N.
    replace (c =? ch "*") with false by lia. replace (c =? ch "&") with false by lia. replace (c =? ch "%") with false by lia. replace (c =? ch "@") with false by lia. replace (c =? ch "#") with false by lia. reflexivity.
Qed.
Lemma zlen_nil {A} (l : list A) : zlen l = 0 -> l = [].
Proof. destruct l; [reflexivity|]. unfold zlen. cbn [length]. lia. Qed.
Lemma memb_filter c t : is_wild c = true -> memb c (filter is_wild t) = memb c t.
Proof. intros W. apply eq_iff_eq_true. rewrite !memb_In, filter_In. tauto. Qed.

Lemma row_decodes name i here size vs b x r : row_check name i = true ->
  size = zlen (opcode_bytes i) + operands_width false (i_args i) + (if i_has_end i then 1 else 0) ->
  put false false here size (filter is_wild (i_args i)) vs None = Some (b, x) ->
  exists ins, written_insn name (i_args i) vs = Some ins /\ decode here (opcode_bytes i ++ b ++ tail_byte i x ++ r) = Some (ins, r).
Proof.
  intros H Sz P. unfold row_check in H. apply andb_true_iff in H as (H & H3). apply andb_true_iff in H as (H & H2). apply Nat.leb_le in H3.
  unfold written_insn, decode, tail_byte. change (if existsb (eqbl name) _ then _ else pieces (i_args i)) with (parts name (i_args i)). unfold has in H.
  destruct (memb (ch "#") (i_args i)) eqn:Hs.
  { apply andb_true_iff in H as (H & H6). apply andb_true_iff in H as (H & H5). apply andb_true_iff in H as (H4 & H). apply eqbl_eq in H, H4, H5. apply negb_true_iff in H6. rewrite H6, H5. rewrite H in *. subst name.
    change (filter is_wild (zs "#")) with [35] in P. destruct vs as [|v vs]; [discriminate|]. cbn [put] in P. change (35 =? ch "^") with false in P. cbn iota in P. unfold operand_bytes in P.
    change (35 =? ch "*") with false in P. change (35 =? ch "&") with false in P. change (35 =? ch "%") with false in P. change (35 =? ch "@") with false in P. cbn iota in P.
    destruct (memb v [0; 8; 16; 24; 32; 40; 48; 56]) eqn:M; [|discriminate]. destruct vs; [|discriminate]. injection P as <- <-. exists (mkinsn (zs "RST") [Restart v]). split; [reflexivity|].
    apply memb_In in M. cbn [In] in M. repeat (destruct M as [<-|M]; [reflexivity|]). contradiction. }
  destruct (eqbl name (zs "RST")) eqn:Nr.
  { apply andb_true_iff in H as (H & H5). apply andb_true_iff in H as (H4 & H). apply negb_true_iff in H4. apply eqbl_eq in H. rewrite H in P. destruct vs; [|discriminate]. injection P as <- <-. rewrite H4.
    destruct (parts name (i_args i)) as [|[|a [|c u]] [|]] eqn:Ps; try discriminate. apply found_eq in H5. cbn [app]. rewrite (opcode_app _ _ _ r H5). apply eqbl_eq in Nr. subst name.
    eexists. split; reflexivity. }
  apply andb_true_iff in H as (H & H5). apply andb_true_iff in H as (H & H4). apply eqbl_eq in H. set (ps := parts name (i_args i)) in *.
  assert (Pm : forall bit, (In (ch "^") (flat_map part_wild ps) -> x = Some bit) ->
    exists os, pieces_mean name ps vs = Some os /\ forall r, operands here (map (sym bit) ps) (b ++ r) = Some (os, r)).
  { intros bit Hb. apply (parts_mean name here size bit Nr ps vs None b x H4); [now rewrite <- H| |now rewrite <- H|exact Hb].
    intros Hr. rewrite <- H in Hr. assert (Hp : memb (ch "%") (i_args i) = true) by (apply filter_In in Hr as (Hr & _); now apply memb_In).
    unfold has in H2. rewrite Hp in H2. cbn [negb orb] in H2. apply andb_true_iff in H2 as (H2 & H6). apply andb_true_iff in H2 as (H2 & H7). apply Z.eqb_eq in H2. apply eqbl_eq in H7. apply negb_true_iff in H6.
    subst size. rewrite H6, H2. assert (W : zlen b = operands_width false [ch "%"]) by (rewrite <- H7; eapply put_len; [apply filter_wild|exact P]).
    enough (operands_width false (i_args i) = 1) by lia. rewrite <- (operands_width_filter (i_args i)), H7. reflexivity. }
  assert (Lw : zlen b = operands_width false (i_args i)) by (rewrite <- operands_width_filter; eapply put_len; [apply filter_wild|exact P]).
  destruct (i_has_end i) eqn:He.
  - apply andb_true_iff in H5 as (W & H5). assert (Ok : exists bit, match x with Some v => v = bit | None => bit = 0 end /\
      (if has (ch "@") (i_args i) then match opcode_bytes i with [a; b] => ((a =? 0xDD) || (a =? 0xFD)) && (b =? 0xCB) &&
         found (opcode_at [a; b; 0; match x with Some v => Z.lor (8 * v) (i_end i) | None => i_end i end]) (canon name) (map (sym bit) ps) [0] | _ => false end
       else found (opcode_at (opcode_bytes i ++ [match x with Some v => Z.lor (8 * v) (i_end i) | None => i_end i end])) (canon name) (map (sym bit) ps) []) = true).
    { destruct (memb (ch "^") (i_args i)) eqn:Hb.
      - destruct (put_has_bit _ _ _ _ _ _ _ _ _ P) as (v & -> & V). { apply memb_In. now rewrite memb_filter. }
        exists v. split; [reflexivity|]. rewrite forallb_forall in H5. apply H5. unfold bits. simpl. lia.
      - assert (x = None) as -> by (eapply put_no_bit; [|exact P]; now rewrite memb_filter). exists 0. split; [reflexivity|exact H5]. }
    destruct Ok as (bit & Hx & Ok). destruct (Pm bit) as (os & M & O).
    { intros Hi. rewrite <- H in Hi. destruct (put_has_bit _ _ _ _ _ _ _ _ _ P Hi) as (v & -> & _). congruence. }
    rewrite M. eexists. split; [reflexivity|]. unfold has in Ok.
    destruct (memb (ch "@") (i_args i)) eqn:Ha.
    + destruct (opcode_bytes i) as [|a [|c [|]]] eqn:Ob; try discriminate. apply andb_true_iff in Ok as (Ok & F). apply andb_true_iff in Ok as (Ok1 & Ok2). apply found_eq in F.
      assert (L : zlen b = 1).
 { rewrite Lw. unfold has in W. try rewrite Ha in W. lia. }
      destruct b as [|d [|]]; [discriminate| |unfold zlen in L; cbn [length] in L; lia]. cbn [app]. rewrite (opcode_index _ _ _ _ _ _ Ok1 Ok2 F). specialize (O r). cbn [app] in O. rewrite O. reflexivity.
    + assert (b = []) as -> by (apply zlen_nil; rewrite Lw; unfold has in W; try rewrite Ha in W; lia). apply found_eq in Ok. rewrite app_nil_l, app_assoc, (opcode_app _ _ _ r Ok). specialize (O r). cbn [app] in *. now rewrite O.
  - apply andb_true_iff in H5 as (H5 & F). apply negb_true_iff in H5. apply found_eq in F. destruct (Pm 0) as (os & M & O).
    { intros Hi. rewrite <- H in Hi. apply filter_In in Hi as (Hi & _). apply memb_In in Hi. unfold has in H5. congruence. }
    rewrite M. eexists. split; [reflexivity|]. cbn [app]. rewrite (opcode_app _ _ _ (b ++ r) F). cbn [app]. now rewrite O.
Qed.
(** ** Programs *)
Section Program.
Variables (wraps case : bool).
Notation fold := (fold_name case).
Notation res := (reserved_name case).
Lemma section_at : forall l1 now here x l2 now' here', sections_ok wraps false fold res opcode_list now here (l1 ++ x :: l2) ->
  reached wraps false fold res now here l1 = Some (now', here') -> section_ok wraps false fold res opcode_list now' here' x.
Proof.
  induction l1 as [|y l1 IH]; intros now here x l2 now' here' S R; cbn [app sections_ok reached] in *.
  - injection R as <- <-. now destruct S.
  - destruct S as (_ & S). destruct (after wraps false fold res now here y) as [(n, h)|]; [|discriminate]. eauto.
Qed.
Lemma instruction_decodes now here x name sfx o i gap ws ops es t b : section_ok wraps false fold res opcode_list now here x ->
  x_stmt x = SInstr name sfx o i gap ws ops es -> instr_bytes wraps false fold t here sfx i es = Some b ->
  In o opcode_list /\ eqbl_ci name (op_name o) = true /\
  exists vs ins, map (val wraps fold here t) es = map Some vs /\ written_insn (op_name o) (i_args i) vs = Some ins /\
    forall r, decode here (b ++ r) = Some (ins, r).
Proof.
  intros (_ & _ & S) X B. destruct (with_label fold res now here x) as [t'|]; [|contradiction]. rewrite X in S. destruct S as (Io & Fi & Nm & Sf & _). split; [exact Io|]. split; [exact Nm|].
  destruct Sf as [->|(K & _)]; [|discriminate]. apply find_some in Fi as (Ii & _).
  unfold instr_bytes in B. change (long_mode false []) with false in B. change (prefix_bytes false []) with (@nil Z) in B. cbn [app] in B.
  destruct (operands_bytes wraps false fold t false here (instr_size false [] i) (i_args i) es None) as [(b1, bit)|] eqn:Q; [|discriminate]. injection B as <-.
  destruct (put_of false wraps fold t false here _ _ _ _ _ _ Q) as (vs & M & P). exists vs.
  assert (Rc : row_check (op_name o) i = true). { pose proof rows_check as A. rewrite forallb_forall in A. specialize (A o Io). cbn beta in A. rewrite forallb_forall in A. now apply A. }
  assert (D : forall r, exists ins, written_insn (op_name o) (i_args i) vs = Some ins /\ decode here (opcode_bytes i ++ b1 ++ tail_byte i bit ++ r) = Some (ins, r)).
  { intros r. eapply row_decodes; [exact Rc| |exact P]. unfold instr_size. change (prefix_bytes false []) with (@nil Z). change (long_mode false []) with false. change (zlen []) with 0. lia. }
  destruct (D []) as (ins & W & _). exists ins. split; [exact M|]. split; [exact W|]. intros r. destruct (D r) as (ins' & W' & E). rewrite W in W'. injection W' as <-.
  rewrite <- E. f_equal. unfold tail_byte. rewrite <- !app_assoc. reflexivity.
Qed.
End Program.

(** Wherever an instruction stands in a program, its bytes in the output file are, to the
    processor, that instruction with the values its operands have. *)
Theorem c11_instruction_decodes : forall w case fuel input output x stem p l1 sec l2 name sfx o i gap ws ops es b0,
  hd0 input <> 45 -> hd0 output <> 45 -> plain_name output x stem -> w_files w input = Some (program_text p) ->
  valid w false case p -> result w false case p = Some b0 -> zlen b0 <= 8000000 -> (length (program_text p) + 22 <= fuel)%nat ->
  sections p = l1 ++ sec :: l2 -> x_stmt sec = SInstr name sfx o i gap ws ops es ->
  exists s t now here now' b1 b b2 vs ins,
    main fuel w (command false case input output) = Done 0 [(output, exported_bytes x (b1 ++ b ++ b2))] (Some s) /\
    stands w false case p l1 sec l2 t now here now' (here + zlen b) b1 b b2 /\
    map (val (w_wrap w) (fold_name case) here t) es = map Some vs /\
    eqbl_ci name (op_name o) = true /\ written_insn (op_name o) (i_args i) vs = Some ins /\
    forall r, decode here (b ++ r) = Some (ins, r).
Proof.
  intros w case fuel input output x stem p l1 sec l2 name sfx o i gap ws ops es b0 Hi Ho Hp F1 V1 Re Rm Fu E Sx.
  destruct (c48_whole_program w false case fuel input output x stem p b0 Hi Ho F1 Hp V1 Re Rm Fu) as (t1 & s & P1 & _).
  destruct (stands_intro w false case p l1 sec l2 b0 E Re) as (t & now & here & now' & here' & b1 & b & b2 & -> & St & Em & Af & Sy).
  assert (here' = here + zlen b) as -> by (eapply emits_len; [|exact Em|exact Af]; unfold moves_only; now rewrite Sx).
  destruct V1 as (_ & _ & _ & So). rewrite E in So. destruct St as (St1 & St2 & R1 & St3).
  pose proof (section_at _ _ _ _ _ _ _ _ _ So R1) as Sk.
  unfold emits in Em. rewrite Sx in Em. destruct (instruction_decodes _ _ _ _ _ _ _ _ _ _ _ _ _ _ _ Sk Sx Em) as (Io & Nm & vs & ins & M & W & D).
  exists s, t, now, here, now', b1, b, b2, vs, ins. split; [exact P1|]. split; [now split|]. split; [exact M|]. split; [exact Nm|]. split; [exact W|exact D].
Qed.
Example c11_case : exists t vs,
  symbols_of ex_world false false ex_program = Some t /\ vs = [40349] /\
  map (val (w_wrap ex_world) (fold_name false) 40343 t) [ex_name (zs "done")] = map Some vs /\
  written_insn (zs "JR") (zs "NZ,%") vs = Some (mkinsn (zs "JR") [Fixed (zs "NZ"); Target 40349]) /\
  decode 40343 [32; 4; 1] = Some (mkinsn (zs "JR") [Fixed (zs "NZ"); Target 40349], [1]).
Proof. eexists. exists [40349]. split; [vm_compute; reflexivity|]. repeat split; vm_compute; reflexivity. Qed.
Print Assumptions c11_instruction_decodes.

(** ** Disassembly *)
(** All instructions of a stream of bytes. *)
Fixpoint disassemble (fuel : nat) (pc : Z) (b : list Z) : option (list insn) :=
  match b, fuel with
  | [], _ => Some []
  | _, O => None
  | _, S f =>
    match decode pc b with
    | None => None
    | Some (i, r) => match disassemble f (pc + (zlen b - zlen r)) r with Some l => Some (i :: l) | None => None end
    end
  end.
(** The instructions written in a program, with the values of their operands at their addresses. *)
Inductive listing (w : world) (case : bool) (t : table) : Z -> list section -> list insn -> Prop :=
  | L_nil here : listing w case t here [] []
  | L_instr here x name sfx o i gap ws ops es vs ins l is :
      x_stmt x = SInstr name sfx o i gap ws ops es -> map (val (w_wrap w) (fold_name case) here t) es = map Some vs ->
      written_insn (op_name o) (i_args i) vs = Some ins -> listing w case t (here + instr_size false sfx i) l is ->
      listing w case t here (x :: l) (ins :: is)
  | L_other here x l is :
      match x_stmt x with SNone | SEqu _ _ _ | SSet _ => True | _ => False end -> listing w case t here l is -> listing w case t here (x :: l) is.
Definition code_only (x : section) : Prop :=
  match x_stmt x with SNone | SInstr _ _ _ _ _ _ _ _ | SEqu _ _ _ | SSet _ => True | _ => False end.

Lemma put_nonempty : forall o i, In o opcode_list -> In i (op_instrs o) -> 0 < instr_size false [] i.
Proof.
  assert (A : forallb (fun o => forallb (fun i => 0 <? instr_size false [] i) (op_instrs o)) opcode_list = true) by (vm_compute; reflexivity).
  intros o i Io Ii. rewrite forallb_forall in A. specialize (A o Io). cbn beta in A. rewrite forallb_forall in A. specialize (A i Ii). lia.
Qed.
Lemma disassembles w case t : forall l now here b, Forall code_only l ->
  sections_ok (w_wrap w) false (fold_name case) (reserved_name case) opcode_list now here l ->
  output (w_wrap w) false (fold_name case) (reserved_name case) t now here l = Some b ->
  exists is, listing w case t here l is /\ forall fuel, (length b <= fuel)%nat -> disassemble fuel here b = Some is.
Proof.
  induction l as [|x l IH]; intros now here b C So O.
  - cbn in O. injection O as <-. exists []. split; [constructor|]. intros [|]; reflexivity.
  - apply Forall_cons_iff in C as (Cx & C). cbn [sections_ok] in So. destruct So as (Sx & So). cbn [output] in O.
    destruct (emits (w_wrap w) false (fold_name case) (reserved_name case) t now here x) as [b1|] eqn:Em; [|discriminate].
    destruct (after (w_wrap w) false (fold_name case) (reserved_name case) now here x) as [(now', here')|] eqn:Af; [|discriminate].
    destruct (output _ _ _ _ t now' here' l) as [b2|] eqn:O2; [|discriminate]. injection O as <-.
    destruct (IH now' here' b2 C So O2) as (is & Li & Di). assert (Nm : moves_only x = false) by (unfold moves_only; unfold code_only in Cx; destruct (x_stmt x); now try contradiction).
    pose proof (emits_len _ _ _ _ _ _ _ _ _ _ _ Nm Em Af) as ->.
    destruct (x_stmt x) as [|name sfx o i gap ws ops es| | | |u v e|e|y|z] eqn:X; unfold code_only in Cx; rewrite X in Cx; try contradiction; unfold emits in Em; rewrite X in Em.
    + injection Em as <-. change (zlen []) with 0 in *. rewrite Z.add_0_r in *. exists is. split; [apply L_other; [now rewrite X|exact Li]|exact Di].
    + destruct (instruction_decodes _ _ _ _ _ _ _ _ _ _ _ _ _ _ _ Sx X Em) as (Io & _ & vs & ins & M & W & D). exists (ins :: is). assert (Le : zlen b1 = instr_size false sfx i) by (exact (instr_len _ _ _ (fun _ => false) _ _ _ _ _ _ Em)). rewrite Le in Li, Di.
      split; [econstructor; eassumption|]. intros fuel Fu.
      assert (Pos : 0 < zlen b1).
      { rewrite Le. destruct Sx as (_ & _ & Sx). destruct (with_label _ _ now here x); [|contradiction]. rewrite X in Sx. destruct Sx as (_ & Fi & _ & Sf & _). destruct Sf as [->|(K & _)]; [|discriminate]. apply find_some in Fi as (Fi & _). exact (put_nonempty o i Io Fi). }
      destruct b1 as [|c b1]; [unfold zlen in Pos; cbn in Pos; lia|]. destruct fuel as [|fuel]; [cbn in Fu; lia|]. specialize (D b2). cbn [app] in *. cbn [disassemble]. rewrite D.
      replace (here + (zlen (c :: b1 ++ b2) - zlen b2)) with (here + instr_size false sfx i) by (rewrite <- Le; change (c :: b1 ++ b2) with ((c :: b1) ++ b2); rewrite zlen_app; lia).
      rewrite Di; [reflexivity|]. cbn [length] in Fu. rewrite app_length in Fu. lia.
    + injection Em as <-. change (zlen []) with 0 in *. rewrite Z.add_0_r in *. exists is. split; [apply L_other; [now rewrite X|exact Li]|exact Di].
    + injection Em as <-. change (zlen []) with 0 in *. rewrite Z.add_0_r in *. exists is. split; [apply L_other; [now rewrite X|exact Li]|exact Di].
Qed.
(** Disassembling the output of a program of instructions gives back the instructions written, in
    order and with the values of their operands. *)
Theorem c11_disassembly : forall w case fuel input output x stem p b,
  hd0 input <> 45 -> hd0 output <> 45 -> plain_name output x stem -> w_files w input = Some (program_text p) ->
  valid w false case p -> result w false case p = Some b -> zlen b <= 8000000 -> (length (program_text p) + 22 <= fuel)%nat ->
  Forall code_only (sections p) ->
  exists s t is, main fuel w (command false case input output) = Done 0 [(output, exported_bytes x b)] (Some s) /\
    symbols_of w false case p = Some t /\ listing w case t 0 (sections p) is /\ disassemble (length b) 0 b = Some is.
Proof.
  intros w case fuel input output x stem p b Hi Ho Hp F1 V1 Re Rm Fu Co.
  destruct (c48_whole_program w false case fuel input output x stem p b Hi Ho F1 Hp V1 Re Rm Fu) as (t & s & P1 & _ & Sy & _).
  destruct V1 as (_ & _ & _ & So). unfold result, assemble in Re. unfold symbols_of in Sy. rewrite Sy in Re.
  destruct (disassembles w case t (sections p) [] 0 b Co So Re) as (is & Li & Di). exists s, t, is. split; [exact P1|]. split; [exact Sy|]. split; [exact Li|]. apply Di. lia.
Qed.
Definition code_program : list line :=
  [ ex_line (mksection (Some (zs "Start")) true sp (ex_ins (zs "ld") (zs "A,&") sp (chars (zs "a,") ++ plain (zs "count") []) [zs "count"] [ex_name (zs "count")])) [] None;
    ex_line (mksection None false sp (ex_ins (zs "jr") (zs "NZ,%") sp (chars (zs "nz,") ++ plain (zs "done") sp) [zs "done "] [ex_name (zs "done")])) [] None;
    ex_line (mksection (Some (zs "count")) false sp (SEqu (zs "equ") sp (ex_at [] (ex_num (zs "5")) (zs "5") []))) [] None;
    ex_line (mksection (Some (zs "done")) true sp (ex_ins (zs "ret") [] [] [] [] [])) [] None ].
Definition code_world : world := mkworld (fun n => if eqbl n (zs "prog.asm") then Some (program_text code_program) else None) (fun _ => 0) (zs "/src") (fun _ => []) false.
Lemma code_valid : valid code_world false false code_program.
Proof.
  split; [discriminate|]. split; [vm_compute; repeat (apply Forall_cons; [discriminate|]); constructor|]. split.
  { repeat (apply Forall_cons; [exact I|]). constructor. }
  unfold code_program, sections. cbn [flat_map ex_line l_first l_more app].
  eapply ex_next; [|vm_compute; reflexivity|]. { split; [split; [exact ex_sp|discriminate]|]. split; [now apply name_okb_ok|]. apply ok_ld. }
  eapply ex_next; [|vm_compute; reflexivity|]. { split; [split; [exact ex_sp|discriminate]|]. split; [exact I|]. apply ok_jr. }
  eapply ex_next; [|vm_compute; reflexivity|]. { split; [split; [exact ex_sp|discriminate]|]. split; [now apply name_okb_ok|]. apply ok_equ; try discriminate; reflexivity. }
  eapply ex_next; [|vm_compute; reflexivity|]. { split; [split; [exact ex_sp|discriminate]|]. split; [now apply name_okb_ok|]. apply ok_ret. }
  exact I.
Qed.
Example c11_program : exists s t, main 200 code_world (command false false (zs "prog.asm") (zs "prog.bin")) = Done 0 [(zs "prog.bin", [62; 5; 32; 0; 201])] (Some s) /\
  listing code_world false t 0 (sections code_program)
    [mkinsn (zs "LD") [Fixed (zs "A"); Byte 5]; mkinsn (zs "JR") [Fixed (zs "NZ"); Target 4]; mkinsn (zs "RET") []].
Proof.
  assert (P : plain_name (zs "prog.bin") ExBinary (zs "prog")).
  { right. exists (zs "bin"). split; [reflexivity|]. split; [discriminate|]. split; [vm_compute; intuition discriminate|]. split; [reflexivity|now left]. }
  assert (H1 : hd0 (zs "prog.asm") <> 45) by discriminate. assert (H2 : hd0 (zs "prog.bin") <> 45) by discriminate.
  assert (H3 : w_files code_world (zs "prog.asm") = Some (program_text code_program)) by (vm_compute; reflexivity).
  assert (Re : result code_world false false code_program = Some [62; 5; 32; 0; 201]) by (vm_compute; reflexivity).
  assert (H4 : zlen [62; 5; 32; 0; 201] <= 8000000) by (vm_compute; discriminate). assert (H5 : (length (program_text code_program) + 22 <= 200)%nat) by (vm_compute; lia).
  assert (Co : Forall code_only (sections code_program)) by (repeat (apply Forall_cons; [exact I|]); constructor).
  destruct (c11_disassembly code_world false 200 _ _ _ _ _ _ H1 H2 P H3 code_valid Re H4 H5 Co) as (s & t & is & P1 & _ & Li & Di).
  exists s, t. split; [exact P1|]. assert (E : disassemble 5 0 [62; 5; 32; 0; 201] = Some [mkinsn (zs "LD") [Fixed (zs "A"); Byte 5]; mkinsn (zs "JR") [Fixed (zs "NZ"); Target 4]; mkinsn (zs "RET") []]) by (vm_compute; reflexivity).
  cbn [length] in Di. rewrite E in Di. injection Di as <-. exact Li.
Qed.
Print Assumptions c11_disassembly.

(** * C49 *)
(** ** Every instruction of the processor can be written *)
Fixpoint any {A} (f : A -> bool) (l : list A) : bool := match l with [] => false | a :: l' => if f a then true else any f l' end.
Lemma any_exists {A} (f : A -> bool) l : any f l = true -> exists a, In a l /\ f a = true.
Proof. induction l as [|a l IH]; [discriminate|]. cbn [any]. destruct (f a) eqn:E; [intros _; exists a; split; [now left|exact E]|]. intros H. destruct (IH H) as (c & I & Q). exists c. split; [now right|exact Q]. Qed.
Definition writable (x : text * list shape) : bool :=
  let (n, sh) := x in
  any (fun o =>
    if eqbl (canon (op_name o)) n then
      any (fun i =>
        if eqbl n (zs "RST") then
          match parts (op_name o) (i_args i), sh with
          | [a :: b :: _], [SRst v] => v =? 16 * hex_digit a + hex_digit b
          | _, _ => false
          end
        else any (fun b => shapes_eqb (map (sym b) (parts (op_name o) (i_args i))) sh) bits) (op_instrs o)
    else false) opcode_list.
Definition all_bytes : list Z := map Z.of_nat (seq 0 256).
Lemma all_bytes_in b : 0 <= b < 256 -> In b all_bytes.
Proof. intros H. apply in_map_iff. exists (Z.to_nat b). split; [lia|]. apply in_seq. lia. Qed.
Definition when (x : option (text * list shape)) : bool := match x with Some y => writable y | None => true end.
Lemma all_writable :
  forallb (fun b => when (opcode_unprefixed None b) && when (opcode_unprefixed (Some (zs "IX")) b) && when (opcode_unprefixed (Some (zs "IY")) b) &&
    writable (opcode_cb b) && when (opcode_ed b) && writable (opcode_index_cb (zs "IX") b) && writable (opcode_index_cb (zs "IY") b)) all_bytes = true.
Proof. vm_compute. reflexivity. Qed.
Lemma opcode_writable l x r : Forall is_byte l -> opcode_at l = Some (x, r) -> writable x = true /\ Forall is_byte r.
Proof.
  intros F E. pose proof all_writable as A. rewrite forallb_forall in A.
  assert (B : forall b, is_byte b -> when (opcode_unprefixed None b) = true /\ when (opcode_unprefixed (Some (zs "IX")) b) = true /\ when (opcode_unprefixed (Some (zs "IY")) b) = true /\
    writable (opcode_cb b) = true /\ when (opcode_ed b) = true /\ writable (opcode_index_cb (zs "IX") b) = true /\ writable (opcode_index_cb (zs "IY") b) = true).
  { intros b Hb. specialize (A b (all_bytes_in b Hb)). cbn beta in A. repeat (apply andb_true_iff in A as (A & ?)). tauto. }
  clear A. unfold opcode_at in E. destruct l as [|a l]; [discriminate|]. apply Forall_cons_iff in F as (Fa & F).
  destruct (a =? 0xCB). { destruct l as [|b l]; [discriminate|]. apply Forall_cons_iff in F as (Fb & F). injection E as <- <-. split; [now apply B|exact F]. }
  destruct (a =? 0xED). { destruct l as [|b l]; [discriminate|]. apply Forall_cons_iff in F as (Fb & F). destruct (B b Fb) as (_ & _ & _ & _ & W & _). destruct (opcode_ed b); [|discriminate]. injection E as <- <-. split; [exact W|exact F]. }
  destruct ((a =? 0xDD) || (a =? 0xFD)).
  - destruct l as [|b l]; [discriminate|]. apply Forall_cons_iff in F as (Fb & F). destruct (b =? 0xCB).
    + destruct l as [|d [|c l]]; try discriminate. apply Forall_cons_iff in F as (Fd & F). apply Forall_cons_iff in F as (Fc & F). destruct (B c Fc) as (_ & _ & _ & _ & _ & W1 & W2). injection E as <- <-. split; [destruct (a =? 0xDD); assumption|now constructor].
    + destruct (B b Fb) as (_ & W1 & W2 & _). assert (W : when (opcode_unprefixed (Some (if a =? 0xDD then zs "IX" else zs "IY")) b) = true) by (destruct (a =? 0xDD); assumption).
      destruct (opcode_unprefixed _ b); [|discriminate]. injection E as <- <-. split; [exact W|exact F].
  - destruct (B a Fa) as (W & _). destruct (opcode_unprefixed None a); [|discriminate]. injection E as <- <-. split; [exact W|exact F].
Qed.
Lemma operands_written_by name pc bit : eqbl name (zs "RST") = false -> forall ps s os r, Forall is_byte s ->
  operands pc (map (sym bit) ps) s = Some (os, r) -> exists vs, pieces_mean name ps vs = Some os.
Proof.
  intros Nr. induction ps as [|p ps IH]; intros s os r F H.
  - cbn in H. injection H as <- _. now exists [].
  - cbn [map] in H. unfold sym at 1 in H. cbn [pieces_mean]. unfold piece. rewrite Nr.
    destruct (eqbl p (zs "&")) eqn:E1; [|destruct (eqbl p (zs "*")) eqn:E2; [|destruct (eqbl p (zs "(&)")) eqn:E3; [|destruct (eqbl p (zs "(*)")) eqn:E4;
      [|destruct (eqbl p (zs "%")) eqn:E5; [|destruct (eqbl p (zs "(IX@)")) eqn:E6; [|destruct (eqbl p (zs "(IY@)")) eqn:E7; [|destruct (eqbl p (zs "^")) eqn:E8]]]]]]].
    all: cbn [operands] in H.
    1-7: (destruct s as [|a s]; [discriminate|]; apply Forall_cons_iff in F as (Fa & F); unfold is_byte in Fa).
    2,4: (destruct s as [|b s]; [discriminate|]; apply Forall_cons_iff in F as (Fb & F); unfold is_byte in Fb).
    all: match type of H with context [operands ?u ?v ?q] => destruct (operands u v q) as [(os', r')|] eqn:Q; [|discriminate] end;
      injection H as <- <-; destruct (IH _ _ _ F Q) as (vs & M).
    all: first [exists (a :: vs); rewrite Z.mod_small, M by lia; reflexivity | exists ((a + 256 * b) :: vs); rewrite Z.mod_small, M by lia; reflexivity |
      exists ((pc + 2 + signed a) :: vs); rewrite M; reflexivity | exists (signed a :: vs); rewrite M; reflexivity |
      exists (bit :: vs); rewrite M; reflexivity | exists vs; destruct vs; now rewrite M].
Qed.
(** Whatever instruction the processor finds at the head of any bytes, the assembler has a row
    with which it can be written. *)
Theorem c49_every_instruction : forall pc l ins r, Forall is_byte l -> decode pc l = Some (ins, r) ->
  exists o i vs, In o opcode_list /\ In i (op_instrs o) /\ written_insn (op_name o) (i_args i) vs = Some ins.
Proof.
  intros pc l ins r F D. unfold decode in D. destruct (opcode_at l) as [((n, sh), s)|] eqn:O; [|discriminate]. destruct (operands pc sh s) as [(os, r')|] eqn:P; [|discriminate]. injection D as <- <-.
  destruct (opcode_writable _ _ _ F O) as (W & Fs). unfold writable in W. apply any_exists in W as (o & Io & W). destruct (eqbl (canon (op_name o)) n) eqn:Wn; [|discriminate]. apply any_exists in W as (i & Ii & W). apply eqbl_eq in Wn. exists o, i. unfold written_insn. change (if existsb (eqbl (op_name o)) _ then _ else pieces (i_args i)) with (parts (op_name o) (i_args i)).
  unfold canon in Wn.
  destruct (eqbl n (zs "RST")) eqn:Nr.
  - apply eqbl_eq in Nr. rewrite Nr in Wn |- *. assert (Nm : op_name o = zs "RST"). { destruct (eqbl (op_name o) (zs "SL1")); [discriminate|exact Wn]. }
    destruct (parts (op_name o) (i_args i)) as [|[|a [|b u]] [|]] eqn:Ps; try discriminate. destruct sh as [|[] [|]]; try discriminate. apply Z.eqb_eq in W. subst a0. cbn in P. injection P as <- <-.
    exists []. split; [exact Io|]. split; [exact Ii|]. rewrite Nm. reflexivity.
  - apply any_exists in W as (bit & _ & W). apply shapes_eqb_eq in W. subst sh.
    assert (Nr' : eqbl (op_name o) (zs "RST") = false). { destruct (eqbl (op_name o) (zs "SL1")) eqn:S1; [apply eqbl_eq in S1; now rewrite S1|congruence]. }
    destruct (operands_written_by (op_name o) pc bit Nr' _ _ _ _ Fs P) as (vs & M). exists vs. split; [exact Io|]. split; [exact Ii|]. now rewrite M, Wn.
Qed.
Example c49_case : decode 100 [253; 203; 254; 222; 7] = Some (mkinsn (zs "SET") [BitNo 3; Indexed (zs "IY") (-2)], [7]).
Proof. reflexivity. Qed.
Print Assumptions c49_every_instruction.
