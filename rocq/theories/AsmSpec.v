(** A reference assembler: the text of a structured program and the bytes it stands for. *)
From Verif Require Import Base State UtilsSpec StorageSpec ParserSpec InstrSpec MatchSpec.

(** Symbols and their values. *)
Definition table := list (text * Z).
(** The parameters of the macros being expanded (MacroSpec) and the constants made by #define, with their
    values; programs without macros and constants have none. *)
Class Params := params : table.
Definition no_params : Params := [].
(** How deep parentheses may be nested: reading a parameter or a constant takes up levels. *)
Definition nest_limit {P : Params} : Z := match params with [] => 19 | _ => 14 end.

(** ** Program text *)

(** An expression as written, with blanks around it. *)
Record written := mkwritten { w_before : text; w_expr : expr; w_text : text; w_after : text }.
Definition wr (w : written) : text := w_before w ++ w_text w ++ w_after w.
Definition written_ok {P : Params} (w : written) : Prop :=
  Forall blank (w_before w) /\ writes (w_expr w) (w_text w) /\ Forall blank (w_after w) /\
  nest (w_expr w) <= nest_limit /\ zlen (w_text w) + zlen (w_after w) <= 254.

(** A string literal: double quotes and backslashes are escaped. *)
Definition lit_char (c : Z) : text := if memb c [34; 92] then [92; c] else [c].
Definition lit_text (t : text) : text := 34 :: flat_map lit_char t ++ [34].
Inductive datum := DNum (w : written) | DStr (before t after : text).
Definition datum_text (d : datum) : text :=
  match d with DNum w => wr w | DStr b t a => b ++ lit_text t ++ a end.
Fixpoint data_text (l : list datum) : text :=
  match l with [] => [] | [d] => datum_text d | d :: l' => datum_text d ++ 44 :: data_text l' end.

(** A macro call: the name, the arguments in parentheses, and blanks. *)
Record call := mkcall { y_name : text; y_args : option (list written); y_after : text }.
Fixpoint args_text (l : list written) : text :=
  match l with [] => [] | [w] => wr w | w :: l' => wr w ++ 44 :: args_text l' end.
Definition call_text (y : call) : text :=
  y_name y ++ match y_args y with Some l => 40 :: args_text l ++ [41] | None => [] end.

(** #include or #import with the name of a file in double quotes, and blanks. *)
Record paste := mkpaste { z_word : text; z_gap : text; z_name : text; z_after : text }.
Definition paste_text (z : paste) : text := z_word z ++ z_gap z ++ 34 :: z_name z ++ 34 :: z_after z.

(** A statement.  An instruction has the words of its name and suffix, its table entry and row,
    the operand field, and the expressions of the operands; the displacement of an index register
    is the expression obtained by putting a 0 in front of it. *)
Inductive stmt :=
  | SNone
  | SInstr (name sfx : text) (o : opcode) (i : instr) (gap : text) (ws : field) (ops : list text) (es : list expr)
  | SData (word : text) (width : nat) (gap : text) (l : list datum)
  | SFill (word gap : text) (n : written) (v : option written)
  | SOrg (word gap : text) (e : written)
  | SEqu (word gap : text) (e : written)
  | SSet (e : written)
  | SCall (y : call)
  | SPaste (z : paste).
Definition stmt_text (x : stmt) : text :=
  match x with
  | SNone => []
  | SInstr name sfx _ _ gap ws _ _ => name ++ sfx ++ gap ++ wtext ws
  | SData word _ gap l => 46 :: word ++ gap ++ data_text l
  | SFill word gap n v => 46 :: word ++ gap ++ wr n ++ match v with Some w => 44 :: wr w | None => [] end
  | SOrg word gap e | SEqu word gap e => 46 :: word ++ gap ++ wr e
  | SSet e => 61 :: wr e
  | SCall y => call_text y ++ y_after y
  | SPaste z => 35 :: paste_text z
  end.
(** A section of a line: a label, with or without a colon, and a statement. *)
Record section := mksection { x_label : option text; x_colon : bool; x_indent : text; x_stmt : stmt }.
Definition section_text (x : section) : text :=
  match x_label x with Some n => n ++ (if x_colon x then [58] else []) | None => [] end ++ x_indent x ++ stmt_text (x_stmt x).
(** Sections are separated by backslashes; then comes a comment and the line break. *)
Record line := mkline { l_first : section; l_more : list section; l_comment : option text; l_cr : bool }.
Definition line_text (l : line) : text :=
  section_text (l_first l) ++ flat_map (fun x => 92 :: section_text x) (l_more l) ++
  match l_comment l with Some t => 59 :: t | None => [] end ++ (if l_cr l then [13; 10] else [10]).
Definition sections (p : list line) : list section := flat_map (fun l => l_first l :: l_more l) p.
Definition program_text (p : list line) : text := flat_map line_text p.

(** What calls and inclusions do (MacroSpec), given the parameters, the symbols and the address: the symbols and
    the address afterwards, the bytes (the first table has the symbols of the whole program), and
    whether they are well-formed. *)
Class Calls := mkcalls {
  call_after : Params -> table -> Z -> call -> option (table * Z);
  call_bytes : Params -> table -> table -> Z -> call -> option (list Z);
  call_ok : Params -> table -> Z -> call -> Prop;
  paste_after : Params -> table -> Z -> paste -> option (table * Z);
  paste_bytes : Params -> table -> table -> Z -> paste -> option (list Z);
  paste_ok : Params -> table -> Z -> paste -> Prop }.
Definition no_calls : Calls := mkcalls (fun _ _ _ _ => None) (fun _ _ _ _ _ => None) (fun _ _ _ _ => False)
  (fun _ _ _ _ => None) (fun _ _ _ _ _ => None) (fun _ _ _ _ => False).

(** ** Meaning *)
Section Reference.
Context {P : Params} {Ca : Calls}.
Variable wraps : bool.                      (* how signed overflow behaves *)
Variable ez80 : bool.
Variable fold : text -> text.               (* names with equal folding are the same *)
Variable taken : text -> bool.              (* names that are defines *)

Fixpoint assoc (t : table) (n : text) : option Z :=
  match t with [] => None | (m, v) :: t' => if eqbl (fold m) (fold n) then Some v else assoc t' n end.
Definition lookup (t : table) (n : text) : option Z :=
  match assoc params n with Some v => Some v | None => assoc t n end.
Definition val (here : Z) (t : table) (e : expr) : option Z :=
  match value wraps here (lookup t) e with Val v => Some v | _ => None end.

Definition within (a v b : Z) : bool := (a <=? v) && (v <=? b).
(** The [n] low bytes, least significant first. *)
Fixpoint le (n : nat) (v : Z) : list Z := match n with O => [] | S n' => v mod 256 :: le n' (v / 256) end.
(** A number as data of the given width. *)
Definition number_bytes (width : nat) (v : Z) : option (list Z) :=
  match width with
  | 1%nat => if within (-128) v 255 then Some (le 1 v) else None
  | 2%nat => if negb ez80 || within (-32768) v 65535 then Some (le 2 v) else None
  | _ => Some (le width v)
  end.
(** An operand of an instruction at address [here] of length [size], by its wildcard. *)
Definition operand_bytes (long : bool) (here size : Z) (c v : Z) : option (list Z) :=
  if c =? ch "*" then number_bytes (if long then 3 else 2) v
  else if c =? ch "&" then number_bytes 1 v
  else if c =? ch "%" then
    let m := if ez80 then 16777216 else 65536 in
    let d := v mod m - (here mod m + size) in
    if within (-128) d 127 then Some (le 1 d) else None
  else if c =? ch "@" then if within (-128) v 127 then Some (le 1 v) else None
  else if memb v [0; 8; 16; 24; 32; 40; 48; 56] then Some [199 + v] else None.
Definition is_wild (c : Z) : bool := memb c (zs "*&%@#^").
(** The operand bytes, and the bit number for the end of the instruction. *)
Fixpoint operands_bytes (t : table) (long : bool) (here size : Z) (pat : text) (es : list expr) (bit : option Z)
  : option (list Z * option Z) :=
  match pat with
  | [] => match es with [] => Some ([], bit) | _ => None end
  | c :: pat' =>
    if is_wild c then
      match es with
      | [] => None
      | e :: es' =>
        match val here t e with
        | None => None
        | Some v =>
          if c =? ch "^" then if within 0 v 7 then operands_bytes t long here size pat' es' (Some v) else None
          else match operand_bytes long here size c v, operands_bytes t long here size pat' es' bit with
               | Some b, Some (r, x) => Some (b ++ r, x)
               | _, _ => None
               end
        end
      end
    else operands_bytes t long here size pat' es bit
  end.

Definition suffix_of (sfx : text) : option suffix :=
  suffix_meaning ez80 (map tolower sfx).
Definition long_mode (sfx : text) : bool :=
  match suffix_of sfx with Some x => long_immediate x | None => ez80 end.
Definition prefix_bytes (sfx : text) : list Z := match suffix_of sfx with Some x => [prefix_byte x] | None => [] end.
(** The table keeps the opcode bytes last one first, and says how many count. *)
Definition opcode_bytes (i : instr) : list Z := rev (firstn (Z.to_nat (i_size0 i)) (i_data i)).
Definition instr_size (sfx : text) (i : instr) : Z :=
  zlen (prefix_bytes sfx) + zlen (opcode_bytes i) + operands_width (long_mode sfx) (i_args i) + (if i_has_end i then 1 else 0).
Definition instr_bytes (t : table) (here : Z) (sfx : text) (i : instr) (es : list expr) : option (list Z) :=
  match operands_bytes t (long_mode sfx) here (instr_size sfx i) (i_args i) es None with
  | None => None
  | Some (b, bit) =>
    Some (prefix_bytes sfx ++ opcode_bytes i ++ b ++
          if i_has_end i then [match bit with Some x => Z.lor (8 * x) (i_end i) | None => i_end i end] else [])
  end.

Fixpoint data_bytes (t : table) (here : Z) (width : nat) (l : list datum) : option (list Z) :=
  match l with
  | [] => Some []
  | DStr _ u _ :: l' =>
    match data_bytes t (here + zlen u) width l' with Some r => Some (u ++ r) | None => None end
  | DNum w :: l' =>
    match val here t (w_expr w) with
    | None => None
    | Some v =>
      match number_bytes width v, data_bytes t (here + Z.of_nat width) width l' with
      | Some b, Some r => Some (b ++ r)
      | _, _ => None
      end
    end
  end.
Definition data_size (width : nat) (l : list datum) : Z :=
  fold_right (fun d n => match d with DStr _ u _ => zlen u | DNum _ => Z.of_nat width end + n) 0 l.

(** Counts and addresses must be known where they are used. *)
Definition fill_args (t : table) (here : Z) (n : written) (v : option written) : option (Z * Z) :=
  match val here t (w_expr n), match v with Some w => val here t (w_expr w) | None => Some 0 end with
  | Some n, Some v => if within 0 n 8000000 && within (-128) v 255 then Some (n, v) else None
  | _, _ => None
  end.

(** Addresses and symbol values are kept below 10^9. *)
Definition small (v : Z) : bool := within 0 v 999999999.
(** The symbols and the address after a section. *)
Definition with_label (now : table) (here : Z) (x : section) : option table :=
  match x_label x with
  | None => Some now
  | Some n => if taken n || match lookup now n with Some _ => true | None => false end then None else Some ((n, here) :: now)
  end.
Definition after (now : table) (here : Z) (x : section) : option (table * Z) :=
  match with_label now here x with
  | None => None
  | Some now' =>
    match
      match x_stmt x with
      | SNone => Some (now', here)
      | SInstr _ sfx _ i _ _ _ _ => Some (now', here + instr_size sfx i)
      | SData _ width _ l => Some (now', here + data_size width l)
      | SFill _ _ n v => match fill_args now' here n v with Some (n, _) => Some (now', here + n) | None => None end
      | SOrg _ _ e => match val here now' (w_expr e) with Some a => Some (now', a) | None => None end
      | SEqu _ _ e | SSet e =>
        match x_label x, val here now' (w_expr e) with
        | Some n, Some v => if small v then Some ((n, v) :: now, here) else None
        | _, _ => None
        end
      | SCall y => call_after params now' here y
      | SPaste z => paste_after params now' here z
      end
    with
    | Some (t, a) => if small a then Some (t, a) else None
    | None => None
    end
  end.
(** The bytes of a section, when the symbols of the whole program are [t]. *)
Definition emits (t now : table) (here : Z) (x : section) : option (list Z) :=
  match x_stmt x with
  | SInstr _ sfx _ i _ _ _ es => instr_bytes t here sfx i es
  | SData _ width _ l => data_bytes t here width l
  | SFill _ _ n v =>
    match with_label now here x with
    | Some now' => match fill_args now' here n v with Some (n, v) => Some (repeat (v mod 256) (Z.to_nat n)) | None => None end
    | None => None
    end
  | SCall y => match with_label now here x with Some now' => call_bytes params t now' here y | None => None end
  | SPaste z => match with_label now here x with Some now' => paste_bytes params t now' here z | None => None end
  | _ => Some []
  end.

Fixpoint symbols (now : table) (here : Z) (l : list section) : option table :=
  match l with
  | [] => Some now
  | x :: l' => match after now here x with Some (now', here') => symbols now' here' l' | None => None end
  end.
Fixpoint output (t now : table) (here : Z) (l : list section) : option (list Z) :=
  match l with
  | [] => Some []
  | x :: l' =>
    match emits t now here x, after now here x with
    | Some b, Some (now', here') => match output t now' here' l' with Some r => Some (b ++ r) | None => None end
    | _, _ => None
    end
  end.
(** The symbols and the address after some sections. *)
Fixpoint reached (now : table) (here : Z) (l : list section) : option (table * Z) :=
  match l with
  | [] => Some (now, here)
  | x :: l' => match after now here x with Some (now', here') => reached now' here' l' | None => None end
  end.
(** Two passes: first the symbols, then the bytes. *)
Definition assemble (p : list line) : option (list Z) :=
  match symbols [] 0 (sections p) with Some t => output t [] 0 (sections p) | None => None end.

(** ** Well-formed programs *)

(** Words inside numbers and quotes that could be mistaken for a name. *)
Definition atom_hidden (a : atom) : list text :=
  match a with
  | Num (HexDollar ds) => [ds]
  | Chr c | Esc c => [[c]]
  | _ => []
  end.
Fixpoint term_hidden (t : term) : list text :=
  match t with Leaf _ a => atom_hidden a | Par _ e => hidden e end
with hidden (e : expr) : list text :=
  match e with Single t => term_hidden t | Bin e _ t => hidden e ++ term_hidden t end.
Fixpoint term_names (t : term) : list text :=
  match t with Leaf _ (Name n) => [n] | Leaf _ _ => [] | Par _ e => names_of e end
with names_of (e : expr) : list text :=
  match e with Single t => term_names t | Bin e _ t => names_of e ++ term_names t end.
Definition isSome {A} (x : option A) : bool := match x with Some _ => true | None => false end.
(** An expression that can wait for the second pass: nothing in it but its names looks like a
    symbol, and no double quote or comma is quoted; it has no parameters. *)
Definition may_wait (now : table) (e : expr) : bool :=
  forallb (fun w => negb (taken w || taken (w ++ [33]) || isSome (lookup now w) || isSome (lookup now (w ++ [33])) ||
                          memb 34 w)) (hidden e) &&
  forallb (fun n => negb (isSome (assoc params n))) (names_of e).
(** The names in an expression are not defines, but for parameters and constants; it is known now, or it can wait. *)
Definition usable (n : text) : bool := negb (taken n) || isSome (assoc params n).
Definition expr_ok (here : Z) (now : table) (e : expr) : Prop :=
  forallb usable (names_of e) = true /\ (isSome (val here now e) || may_wait now e) = true.

Variable ops : list opcode.

Definition word_is (w : text) (l : list text) : bool := existsb (eqbl_ci w) l.
Definition gap_ok (gap : text) : Prop := gap <> [] /\ Forall blank gap.
(** The expressions are those written in the operand field. *)
Fixpoint operands_written (pat : text) (ops : list text) (es : list expr) : Prop :=
  match pat with
  | [] => ops = [] /\ es = []
  | c :: pat' =>
    if is_wild c then
      match ops, es with
      | u :: ops', e :: es' =>
        nest e <= nest_limit /\
        (exists te b, writes e te /\ Forall blank b /\ (if c =? ch "@" then 48 :: u = te ++ b else u = te ++ b)) /\
        operands_written pat' ops' es'
      | _, _ => False
      end
    else operands_written pat' ops es
  end.
Definition datum_ok (d : datum) : Prop :=
  match d with
  | DNum w => written_ok w
  | DStr b t a => Forall blank b /\ Forall blank a /\ Forall (fun c => 0 < c < 256 /\ c <> 10 /\ c <> 13) t /\ zlen (lit_text t) + zlen a <= 254
  end.
Fixpoint data_ok (here : Z) (now : table) (width : nat) (l : list datum) : Prop :=
  match l with
  | [] => True
  | DStr _ u _ as d :: l' => datum_ok d /\ data_ok (here + zlen u) now width l'
  | DNum w as d :: l' => datum_ok d /\ expr_ok here now (w_expr w) /\ data_ok (here + Z.of_nat width) now width l'
  end.
Definition known_ok (e : written) : Prop := written_ok e /\ forallb usable (names_of (w_expr e)) = true.
Definition label_ok (n : text) : Prop := name_ok n.

Definition stmt_ok (here : Z) (now : table) (x : stmt) : Prop :=
  match x with
  | SNone => True
  | SInstr name sfx o i gap ws texts es =>
    In o ops /\ find (fun j => eqbl (i_args j) (i_args i)) (op_instrs o) = Some i /\ eqbl_ci name (op_name o) = true /\
    (sfx = [] \/ (ez80 = true /\ suffix_of sfx <> None)) /\
    Forall blank gap /\ (gap = [] -> ws = []) /\
    spells (i_args i) ws texts /\ Forall (fun w => item_ok o (fst w)) ws /\ zlen (wtext ws) <= 254 /\
    operands_written (i_args i) texts es /\ Forall (expr_ok here now) es /\
    (In (ch "#") (i_args i) -> Forall (fun e => val here now e <> None) es)
  | SData word width gap l =>
    gap_ok gap /\ l <> [] /\ data_ok here now width l /\
    match width with
    | 1%nat => word_is word [zs "db"; zs "byte"] = true
    | 2%nat => word_is word [zs "dw"; zs "word"] = true
    | 3%nat => word_is word [zs "dl"; zs "long"] = true
    | _ => False
    end
  | SFill word gap n v =>
    gap_ok gap /\ word_is word [zs "fill"; zs "block"] = true /\ known_ok n /\ match v with Some w => known_ok w | None => True end
  | SOrg word gap e => gap_ok gap /\ word_is word [zs "org"] = true /\ known_ok e
  | SEqu word gap e => gap_ok gap /\ word_is word [zs "equ"] = true /\ known_ok e
  | SSet e => known_ok e
  | SCall y => call_ok params now here y
  | SPaste z => paste_ok params now here z
  end.
(** White space before the statement where it is needed to tell it from a label. *)
Definition indent_ok (x : section) : Prop :=
  Forall blank (x_indent x) /\
  (x_indent x = [] ->
   match x_stmt x with
   | SNone | SSet _ => True
   | SInstr _ _ _ _ _ _ _ _ => False
   | SCall y => x_label x = None /\ y_args y <> None
   | _ => x_label x = None \/ x_colon x = true
   end).
Definition section_ok (now : table) (here : Z) (x : section) : Prop :=
  indent_ok x /\ match x_label x with Some n => label_ok n | None => True end /\
  match with_label now here x with Some now' => stmt_ok here now' (x_stmt x) | None => False end.
Fixpoint sections_ok (now : table) (here : Z) (l : list section) : Prop :=
  match l with
  | [] => True
  | x :: l' => section_ok now here x /\ match after now here x with Some (now', here') => sections_ok now' here' l' | None => False end
  end.
Definition line_ok (l : line) : Prop :=
  match l_comment l with Some t => Forall (fun c => c <> 10 /\ c <> 13) t | None => True end.
(** The program has a line, and no zero byte. *)
Definition program_ok (p : list line) : Prop :=
  p <> [] /\ Forall (fun c => c <> 0) (program_text p) /\ Forall line_ok p /\ sections_ok [] 0 (sections p).
End Reference.

(** ** The names of the assembler *)

(** Without the -A option, the case of letters does not matter in names. *)
Definition fold_name (case : bool) (n : text) : text := if case then n else map fold_case n.
Definition predefined : list text :=
  [zs "FALSE"; zs "GETC"; zs "RGB"; zs "SPASM"; zs "SPASMVER"; zs "TRUE"; zs "__BM_MSK_RGB"; zs "__BM_SHD"; zs "__FILE"; zs "__LINE"].
Definition reserved_name (case : bool) (n : text) : bool := existsb (eqbl (fold_name case n)) predefined.
