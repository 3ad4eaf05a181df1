(** Programs with macros and included files: their text, and what calls and inclusions stand for. *)
From Verif Require Import Base State UtilsSpec StorageSpec ParserSpec InstrSpec MatchSpec AsmSpec CondSpec.

(** ** Text *)

(** A parameter, with blanks around it. *)
Record param := mkparam { pa_before : text; pa_name : text; pa_after : text }.
Definition param_text (p : param) : text := pa_before p ++ pa_name p ++ pa_after p.
Fixpoint params_text (l : list param) : text :=
  match l with [] => [] | [p] => param_text p | p :: l' => param_text p ++ 44 :: params_text l' end.
(** A line with #macro, the lines of the body, and a line with #endmacro. *)
Record macro := mkmacro {
  q_indent : text; q_word : text; q_gap : text; q_name : text; q_space : text; q_params : option (list param); q_end : ending;
  q_body : blocks; q_close : mark }.
Definition params_part (q : macro) : text :=
  match q_params q with Some l => q_space q ++ 40 :: params_text l ++ [41] | None => [] end.
Definition macro_text (q : macro) : text :=
  (q_indent q ++ 35 :: q_word q ++ q_gap q ++ q_name q ++ params_part q ++ ending_text (q_end q)) ++
  blocks_text (q_body q) ++ mark_text (q_close q).
Definition macros_text (l : list macro) : text := flat_map macro_text l.
Definition q_names (q : macro) : list text := match q_params q with Some l => map pa_name l | None => [] end.

(** The body of a macro is assembled with a blank in front of its first line. *)
Definition spaced (b : blocks) : blocks :=
  match b with
  | Line l more =>
    let x := l_first l in
    Line (mkline (mksection (x_label x) (x_colon x) (32 :: x_indent x) (x_stmt x)) (l_more l) (l_comment l) (l_cr l)) more
  | Cond h yes no more => Cond (mkhead (32 :: h_indent h) (h_word h) (h_gap h) (h_test h) (h_end h)) yes no more
  | _ => b
  end.

(** ** Files *)

(** Where a file is: at the name itself if it is absolute, else in the first of the directories that has it. *)
Fixpoint rooted (n : text) : bool :=
  match n with
  | c :: r =>
    if (c =? 32) || (c =? 9) || (c =? 11) || (c =? 12) then rooted r
    else (c =? 47) || (c =? 92) || ((within 65 c 90 || within 97 c 122) && match r with d :: _ => d =? 58 | [] => false end)
  | [] => false
  end.
Definition in_dir (n d : text) : text := map (fun c => if c =? 92 then 47 else c) (d ++ 47 :: n).
Definition located (file : text -> option (list Z)) (search : list text) (n : text) : option text :=
  find (fun f => isSome (file f)) ((if rooted n then [n] else []) ++ map (in_dir n) search).
(** The directories are the one of the source file, and then those of the command line.  The one of
    the source file is what comes before the last slash if its name is absolute, else the current one. *)
Fixpoint cut_slash (n : text) : option text :=
  match n with
  | [] => None
  | c :: r => match cut_slash r with Some d => Some (c :: d) | None => if (c =? 47) || (c =? 92) then Some [] else None end
  end.
Definition home (cwd input : text) : text := if rooted input then match cut_slash input with Some d => d | None => [] end else cwd.
(** The names that can be written between quotes. *)
Definition file_name (n : text) : Prop :=
  Forall (fun c => c <> 34 /\ c <> 92 /\ c <> 10 /\ c <> 13 /\ c <> 59) n /\ zlen n <= 200 /\
  match n with c :: _ => ~ blank c | [] => False end.
(** Source files, by their places, with the lines they have. *)
Definition sources_ok (file : text -> option (list Z)) (l : list (text * blocks)) : Prop :=
  Forall (fun x => let t := blocks_text (snd x) in
    file (fst x) = Some t /\ Forall (fun c => c <> 0) t /\
    match t with [] => False | c :: u => c <> 239 /\ (c = 66 -> hd0 u <> 77) end) l.

(** ** Calls *)
Section Macros.
Variable wraps ez80 : bool.
Variable fold : text -> text.
Variable taken : text -> bool.              (* the names that are defined *)
Variable ops : list opcode.
Variable macros : list macro.
Variable constants : Params.               (* the symbols that have values *)
Variable file : text -> option (list Z).    (* the files there are *)
Variable search : list text.                (* the directories they are looked for in *)
Variable sources : list (text * blocks).

Definition find_macro (n : text) : option macro := find (fun q => eqbl (fold (q_name q)) (fold n)) macros.
Definition call_args (y : call) : list written := match y_args y with Some l => l | None => [] end.
(** The parameters stand for the values the arguments have where the call is; the parameters of
    the macros around it ([outer]) can still be used. *)
Fixpoint bind_args (outer : Params) (now : table) (here : Z) (names : list text) (args : list written) (inner : Params) : option Params :=
  match names, args with
  | [], [] => Some inner
  | n :: names', w :: args' =>
    match val (P := outer) wraps fold here now (w_expr w) with
    | Some v => if within (-2147483647) v 2147483647 then bind_args outer now here names' args' ((n, v) :: inner) else None
    | None => None
    end
  | _, _ => None
  end.
(** No argument has the name of a parameter that comes before it. *)
Fixpoint apart (names : list text) (args : list written) : bool :=
  match names, args with
  | n :: names', _ :: args' =>
    forallb (fun w => forallb (fun x => negb (eqbl (fold x) (fold n))) (names_of (w_expr w))) args' && apart names' args'
  | _, _ => true
  end.
(** These words, and what they begin with, are functions of the assembler. *)
Definition functions : list text := [zs "buf"; zs "clr"; zs "wr"; zs "run"].

Section Step.
Variable deeper : Calls.                    (* the calls in the bodies of macros and in files *)
Definition expansion (P : Params) (now : table) (here : Z) (y : call) : option (macro * Params) :=
  match find_macro (y_name y) with
  | Some q => match bind_args P now here (q_names q) (call_args y) P with Some P' => Some (q, P') | None => None end
  | None => None
  end.
Definition expanded (P : Params) (now : table) (here : Z) (q : macro) : option (list line * (table * Z)) :=
  chosen (P := P) (Ca := deeper) wraps ez80 fold taken now here (spaced (q_body q)).
Definition step_after (P : Params) (now : table) (here : Z) (y : call) : option (table * Z) :=
  match expansion P now here y with
  | Some (q, P') => match expanded P' now here q with Some (_, r) => Some r | None => None end
  | None => None
  end.
Definition step_bytes (P : Params) (t now : table) (here : Z) (y : call) : option (list Z) :=
  match expansion P now here y with
  | Some (q, P') =>
    match expanded P' now here q with
    | Some (p, _) => output (P := P') (Ca := deeper) wraps ez80 fold taken t now here (sections p)
    | None => None
    end
  | None => None
  end.
Definition step_ok (P : Params) (now : table) (here : Z) (y : call) : Prop :=
  name_ok (y_name y) /\ assoc fold P (y_name y) = None /\ Forall blank (y_after y) /\
  (y_args y <> None -> forallb (fun w => negb (starts (y_name y) w)) functions = true) /\
  Forall (fun w => known_ok (P := P) fold taken w /\ nest (w_expr w) <= 14) (call_args y) /\
  match expansion P now here y with
  | Some (q, P') =>
    apart (q_names q) (call_args y) = true /\
    forallb (fun n => negb (isSome (assoc fold constants n))) (q_names q) = true /\
    match expanded P' now here q with
    | Some (p, _) =>
      blocks_ok (P := P') fold taken false (spaced (q_body q)) /\
      sections_ok (P := P') (Ca := deeper) wraps ez80 fold taken ops now here (sections p)
    | None => False
    end
  | None => False
  end.
(** #import stands for the bytes of a file, #include for the lines of a source file. *)
Definition is_import (z : paste) : bool := word_is (z_word z) [zs "import"].
Definition contents (z : paste) : option (list Z) := match located file search (z_name z) with Some f => file f | None => None end.
Definition source (z : paste) : option blocks :=
  match located file search (z_name z) with
  | Some f => match find (fun x => eqbl (fst x) f) sources with Some (_, b) => Some b | None => None end
  | None => None
  end.
Definition pasted (P : Params) (now : table) (here : Z) (z : paste) : option (list line * (table * Z)) :=
  match source z with Some b => chosen (P := P) (Ca := deeper) wraps ez80 fold taken now here b | None => None end.
Definition pasted_after (P : Params) (now : table) (here : Z) (z : paste) : option (table * Z) :=
  if is_import z then match contents z with Some l => Some (now, here + zlen l) | None => None end
  else match pasted P now here z with Some (_, r) => Some r | None => None end.
Definition pasted_bytes (P : Params) (t now : table) (here : Z) (z : paste) : option (list Z) :=
  if is_import z then contents z
  else match pasted P now here z with
       | Some (p, _) => output (P := P) (Ca := deeper) wraps ez80 fold taken t now here (sections p)
       | None => None
       end.
Definition pasted_ok (P : Params) (now : table) (here : Z) (z : paste) : Prop :=
  word_is (z_word z) [zs "include"; zs "import"] = true /\ gap_ok (z_gap z) /\ file_name (z_name z) /\
  Forall blank (z_after z) /\ zlen (z_after z) <= 50 /\
  if is_import z then match contents z with Some l => Forall (fun c => 0 <= c < 256) l | None => False end
  else match source z, pasted P now here z with
       | Some b, Some (p, _) =>
         blocks_ok (P := P) fold taken false b /\
         sections_ok (P := P) (Ca := deeper) wraps ez80 fold taken ops now here (sections p)
       | _, _ => False
       end.
End Step.
(** Calls and inclusions nested up to a depth. *)
Fixpoint calls (depth : nat) : Calls :=
  match depth with
  | O => no_calls
  | S d => mkcalls (step_after (calls d)) (step_bytes (calls d)) (step_ok (calls d))
      (pasted_after (calls d)) (pasted_bytes (calls d)) (pasted_ok (calls d))
  end.
End Macros.

(** ** Well-formed definitions *)
Fixpoint holds_word (w t : text) : bool := starts w t || match t with [] => false | _ :: t' => holds_word w t' end.
Fixpoint distinct (fold : text -> text) (l : list text) : bool :=
  match l with [] => true | n :: l' => forallb (fun m => negb (eqbl (fold n) (fold m))) l' && distinct fold l' end.
Definition param_ok (p : param) : Prop :=
  Forall blank (pa_before p) /\ name_ok (pa_name p) /\ Forall blank (pa_after p) /\ zlen (pa_name p) + zlen (pa_after p) <= 254.
(** A body begins with a line without a label, or with a conditional. *)
Definition body_start (b : blocks) : bool :=
  match b with Line l _ => negb (isSome (x_label (l_first l))) | Cond _ _ _ _ => true | _ => false end.
Definition macro_ok (fold : text -> text) (ops : list opcode) (q : macro) : Prop :=
  Forall blank (q_indent q) /\ word_is (q_word q) [zs "macro"] = true /\ gap_ok (q_gap q) /\
  name_ok (q_name q) /\ eqbl (fold (q_name q)) (zs "__LINE") = false /\ eqbl (fold (q_name q)) (zs "__FILE") = false /\ ~ In 46 (q_name q) /\
  forallb (fun o => negb (eqbl_ci (q_name q) (op_name o))) ops = true /\
  match q_params q with
  | Some l => Forall blank (q_space q) /\ Forall param_ok l /\ (length l <= 16)%nat /\ distinct fold (map pa_name l) = true
  | None => True
  end /\
  ending_ok (q_end q) /\
  body_start (q_body q) = true /\ blocks_ok (P := no_params) fold (fun _ => false) true (q_body q) /\
  holds_word (zs "#endmacro") (blocks_text (q_body q)) = false /\
  mark_ok [zs "endmacro"] (q_close q).

(** ** Headers *)

(** A line with #define, that gives a name a value; without one the value is 1. *)
Record constant := mkconstant {
  v_indent : text; v_word : text; v_gap : text; v_name : text; v_is : option written; v_end : ending }.
Definition constant_text (c : constant) : text :=
  v_indent c ++ 35 :: v_word c ++ v_gap c ++ v_name c ++ match v_is c with Some w => wr w | None => [] end ++ ending_text (v_end c).
Definition v_expr (c : constant) : expr := match v_is c with Some w => w_expr w | None => Single (Leaf NoSign (Num (Decimal [49]))) end.
Definition constant_ok (fold : text -> text) (c : constant) : Prop :=
  Forall blank (v_indent c) /\ word_is (v_word c) [zs "define"] = true /\ gap_ok (v_gap c) /\
  name_ok (v_name c) /\ eqbl (fold (v_name c)) (zs "__LINE") = false /\ eqbl (fold (v_name c)) (zs "__FILE") = false /\
  match v_is c with
  | Some w =>
    gap_ok (w_before w) /\ written_ok (P := no_params) w /\
    forallb (fun x => negb (memb x [10; 13; 34; 39; 59; 92])) (w_text w) = true /\
    starts (zs "eval") (w_text w) = false /\ starts (zs "concat") (w_text w) = false /\
    zlen (w_text w) + zlen (w_after w) + zlen (e_blanks (v_end c)) <= 254
  | None => True
  end /\
  ending_ok (v_end c).
(** A macro in a line with #define: the sections of the body, separated by backslashes, come right
    behind the parenthesis. *)
Record short := mkshort {
  o_indent : text; o_word : text; o_gap : text; o_name : text; o_params : list param; o_first : section; o_more : list section;
  o_comment : option text; o_cr : bool }.
Definition o_body (o : short) : text := section_text (o_first o) ++ flat_map (fun x => 92 :: section_text x) (o_more o).
Definition short_text (o : short) : text :=
  o_indent o ++ 35 :: o_word o ++ o_gap o ++ o_name o ++ 40 :: params_text (o_params o) ++ 41 :: o_body o ++
  match o_comment o with Some t => 59 :: t | None => [] end ++ eol_text (o_cr o).
(** It stands for the macro whose body is that line. *)
Definition as_macro (o : short) : macro :=
  mkmacro (o_indent o) (o_word o) (o_gap o) (o_name o) [] (Some (o_params o)) (mkending [] (o_comment o) (o_cr o))
    (Line (mkline (o_first o) (o_more o) None false) Nil) (mkmark [] [] (mkending [] None false)).
Definition short_ok (fold : text -> text) (ops : list opcode) (o : short) : Prop :=
  Forall blank (o_indent o) /\ word_is (o_word o) [zs "define"] = true /\ gap_ok (o_gap o) /\
  name_ok (o_name o) /\ eqbl (fold (o_name o)) (zs "__LINE") = false /\ eqbl (fold (o_name o)) (zs "__FILE") = false /\ ~ In 46 (o_name o) /\
  forallb (fun p => negb (eqbl_ci (o_name o) (op_name p))) ops = true /\
  Forall param_ok (o_params o) /\ (length (o_params o) <= 16)%nat /\ distinct fold (map pa_name (o_params o)) = true /\
  x_label (o_first o) = None /\ match o_body o with c :: _ => ~ line_ender c | [] => False end /\
  Forall (fun c => c <> 10 /\ c <> 13 /\ c <> 59) (o_body o) /\
  match o_comment o with Some t => no_break t /\ ~ In 34 (o_body o) | None => True end.
(** Macros and constants, in front of a program. *)
Inductive item := IMacro (q : macro) | IConst (c : constant) | IShort (o : short).
Definition item_text (i : item) : text := match i with IMacro q => macro_text q | IConst c => constant_text c | IShort o => short_text o end.
Definition item_name (i : item) : text := match i with IMacro q => q_name q | IConst c => v_name c | IShort o => o_name o end.
Definition item_ok (fold : text -> text) (ops : list opcode) (i : item) : Prop :=
  match i with IMacro q => macro_ok fold ops q | IConst c => constant_ok fold c | IShort o => short_ok fold ops o end.
Definition header_text (l : list item) : text := flat_map item_text l.
Definition header_macros (l : list item) : list macro := flat_map (fun i => match i with IMacro q => [q] | IConst _ => [] | IShort o => [as_macro o] end) l.
(** They have names of their own. *)
Definition header_ok (fold : text -> text) (defined : text -> bool) (ops : list opcode) (l : list item) : Prop :=
  Forall (fun i => item_ok fold ops i /\ defined (item_name i) = false) l /\ distinct fold (map item_name l) = true.
Definition header_name (fold : text -> text) (l : list item) (n : text) : bool := existsb (fun i => eqbl (fold (item_name i)) (fold n)) l.

(** The values of the constants.  A constant can be made of constants before it, but not of the
    location counter; [levels] is how many levels it takes to read each of them. *)
Fixpoint term_fixed (t : term) : bool := match t with Leaf _ Here => false | Leaf _ _ => true | Par _ e => fixed e end
with fixed (e : expr) : bool := match e with Single t => term_fixed t | Bin e _ t => fixed e && term_fixed t end.
Definition level_of (fold : text -> text) (levels : table) (e : expr) : Z :=
  1 + nest e + fold_right Z.max 0 (map (fun n => match assoc fold levels n with Some k => k | None => 0 end) (names_of e)).
Fixpoint values (wraps : bool) (fold : text -> text) (known : Params) (levels : table) (l : list item) : option Params :=
  match l with
  | [] => Some known
  | IMacro _ :: l' | IShort _ :: l' => values wraps fold known levels l'
  | IConst c :: l' =>
    match val (P := known) wraps fold 0 [] (v_expr c) with
    | Some v =>
      let k := level_of fold levels (v_expr c) in
      if fixed (v_expr c) && (k <=? 5) && forallb (fun n => isSome (assoc fold known n)) (names_of (v_expr c))
      then values wraps fold ((v_name c, v) :: known) ((v_name c, k) :: levels) l' else None
    | None => None
    end
  end.
