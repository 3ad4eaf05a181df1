(** Specification of the symbol storage: labels, defines and macro parameters as functions
    from names, anonymous labels as a list of addresses. *)
From Verif Require Import Base State.

(** Two spellings of a name: equal, or equal ignoring the case of letters a-z. *)
Definition fold_case (c : Z) : Z := if (97 <=? c) && (c <=? 122) then c - 32 else c.
Fixpoint same_letters (a b : text) : bool :=
  match a, b with
  | [], [] => true
  | x :: a', y :: b' => (fold_case x =? fold_case y) && same_letters a' b'
  | _, _ => false
  end.
Definition same_name (case_sensitive : bool) (a b : text) : bool :=
  if case_sensitive then eqbl a b else same_letters a b.

(** What a define or parameter stands for: its text, if it has one, and its own parameters. *)
Record entry := mkentry { en_text : option text; en_params : list text }.

Record names := mknames {
  n_labels : text -> option Z;
  n_defines : text -> option entry;
  n_scopes : list (text -> option entry);      (* parameters of the active calls, innermost first *)
  n_status : Z;                                (* exit status so far *)
}.

Definition bind_name {A} (cs : bool) (n : text) (v : option A) (f : text -> option A) : text -> option A :=
  fun m => if same_name cs m n then v else f m.

(** The meaning of a name as a parameter or define: innermost call first. *)
Fixpoint in_scopes (l : list (text -> option entry)) (n : text) : option entry :=
  match l with
  | [] => None
  | f :: l' => match f n with Some e => Some e | None => in_scopes l' n end
  end.
Definition meaning (ns : names) (n : text) : option entry :=
  match in_scopes (n_scopes ns) n with Some e => Some e | None => n_defines ns n end.

(** Give a parameter a new text, in the innermost call that has it. *)
Fixpoint set_in_scopes (cs : bool) (n : text) (e : entry) (l : list (text -> option entry)) :=
  match l with
  | [] => []
  | f :: l' => match f n with
               | Some _ => bind_name cs n (Some e) f :: l'
               | None => f :: set_in_scopes cs n e l'
               end
  end.

Inductive name_op :=
  | NLabel (n : text) (v : Z)              (* a label definition *)
  | NDefine (n : text) (t : text)          (* #define n t, without parameters *)
  | NUndef (n : text)                      (* #undef n *)
  | NOpen                                  (* a macro call begins *)
  | NParam (n : text) (t : option text)    (* its parameter n gets a text, or none *)
  | NClose.                                (* the call ends *)

(** [counting] is the code counter mode, in which labels are not stored.  A name cannot be
    both a label and a define; the second use is an error (status 2).  Giving a label another
    value is a warning (status 1). *)
Definition name_step (cs counting : bool) (o : name_op) (ns : names) : names :=
  match o with
  | NLabel n v =>
    if counting then ns
    else match meaning ns n with
         | Some _ => mknames (n_labels ns) (n_defines ns) (n_scopes ns) (Z.max 2 (n_status ns))
         | None => mknames (bind_name cs n (Some v) (n_labels ns)) (n_defines ns) (n_scopes ns)
                     (match n_labels ns n with
                      | Some v' => if v' =? v then n_status ns else Z.max 1 (n_status ns)
                      | None => n_status ns
                      end)
         end
  | NDefine n t =>
    match n_labels ns n with
    | Some _ => mknames (n_labels ns) (n_defines ns) (n_scopes ns) (Z.max 2 (n_status ns))
    | None =>
      match in_scopes (n_scopes ns) n with
      | Some _ => mknames (n_labels ns) (n_defines ns)
                    (set_in_scopes cs n (mkentry (Some t) []) (n_scopes ns)) (n_status ns)
      | None => mknames (n_labels ns) (bind_name cs n (Some (mkentry (Some t) [])) (n_defines ns))
                  (n_scopes ns) (n_status ns)
      end
    end
  | NUndef n => mknames (n_labels ns) (bind_name cs n None (n_defines ns)) (n_scopes ns) (n_status ns)
  | NOpen => mknames (n_labels ns) (n_defines ns) ((fun _ => None) :: n_scopes ns) (n_status ns)
  | NParam n t =>
    match n_scopes ns with
    | [] => ns
    | f :: l => mknames (n_labels ns) (n_defines ns) (bind_name cs n (Some (mkentry t [])) f :: l) (n_status ns)
    end
  | NClose => mknames (n_labels ns) (n_defines ns) (tl (n_scopes ns)) (n_status ns)
  end.
Definition names_run (cs counting : bool) (l : list name_op) (ns : names) : names :=
  fold_left (fun ns o => name_step cs counting o ns) l ns.

(** Calls are closed only when open, parameters bound only inside a call, and defines are
    named. *)
Fixpoint balanced (depth : nat) (l : list name_op) : Prop :=
  match l with
  | [] => True
  | NOpen :: l' => balanced (S depth) l'
  | NClose :: l' => match depth with O => False | S d => balanced d l' end
  | NParam _ _ :: l' => (0 < depth)%nat /\ balanced depth l'
  | NDefine n _ :: l' => n <> [] /\ balanced depth l'
  | _ :: l' => balanced depth l'
  end.
(** The two names whose text follows the current position. *)
Definition ordinary (cs : bool) (n : text) : Prop :=
  same_name cs n (zs "__LINE") = false /\ same_name cs n (zs "__FILE") = false.
Definition op_ordinary (cs : bool) (o : name_op) : Prop :=
  match o with NLabel n _ | NDefine n _ => ordinary cs n | _ => True end.

(** The names known before the first line of source: text and parameters. *)
Definition builtins : list (text * (text * list text)) :=
  [(zs "SPASM", (zs "1", [])); (zs "SPASMVER", (zs "2", [])); (zs "__LINE", (zs "0", []));
   (zs "__FILE", (zs "Init", [])); (zs "TRUE", (zs "1", [])); (zs "FALSE", (zs "0", []));
   (zs "__BM_SHD", (zs "2", [])); (zs "__BM_MSK_RGB", (zs "RGB(0, 255, 0)", []));
   (zs "RGB", (zs "((__R) << 16)|((__G) << 8)|(__B)", [zs "__R"; zs "__G"; zs "__B"]));
   (zs "GETC", (zs "(0)", [zs "__A"; zs "__N"]))].
Fixpoint builtin_of (cs : bool) (n : text) (l : list (text * (text * list text))) : option entry :=
  match l with
  | [] => None
  | (m, (t, ps)) :: l' => if same_name cs n m then Some (mkentry (Some t) ps) else builtin_of cs n l'
  end.
Definition first_names (cs : bool) : names :=
  mknames (fun _ => None) (fun n => builtin_of cs n builtins) [] 0.

(** A stretch of operations in which every call opened is closed, that neither defines nor
    undefines anything. *)
Fixpoint calls_only (depth : nat) (l : list name_op) : Prop :=
  match l with
  | [] => depth = O
  | NOpen :: l' => calls_only (S depth) l'
  | NClose :: l' => match depth with O => False | S d => calls_only d l' end
  | NParam _ _ :: l' => (0 < depth)%nat /\ calls_only depth l'
  | NLabel _ _ :: l' => calls_only depth l'
  | _ => False
  end.

(** Anonymous labels: [l] lists the addresses of all of them in source order, [k] of them
    are on this line or before. *)
Definition following (l : list Z) (k n : nat) : option Z := nth_error l (k + n - 1).
Definition preceding (l : list Z) (k n : nat) : option Z := if (n <=? k)%nat then nth_error l (k - n) else None.

(** The label file: alphabetical order ignoring case, with prefixes first. *)
Definition lower_case (c : Z) : Z := if (65 <=? c) && (c <=? 90) then c + 32 else c.
Inductive alpha_le : text -> text -> Prop :=
  | al_nil b : alpha_le [] b
  | al_lt x y a b : lower_case x < lower_case y -> alpha_le (x :: a) (y :: b)
  | al_eq x y a b : lower_case x = lower_case y -> alpha_le a b -> alpha_le (x :: a) (y :: b).
(** A number written in upper-case hexadecimal digits. *)
Definition hex_digit_value (c : Z) : option Z :=
  if (48 <=? c) && (c <=? 57) then Some (c - 48)
  else if (65 <=? c) && (c <=? 70) then Some (c - 55) else None.
Fixpoint hex_value (acc : Z) (l : text) : option Z :=
  match l with
  | [] => Some acc
  | c :: l' => match hex_digit_value c with Some d => hex_value (16 * acc + d) l' | None => None end
  end.
(** A line [NAME = $VALUE], the value as a 32-bit pattern in at least four digits. *)
Definition label_line (name : text) (v : Z) (l : text) : Prop :=
  exists ds, l = name ++ zs " = $" ++ ds ++ [10] /\ hex_value 0 ds = Some (v mod 4294967296) /\ (4 <= length ds)%nat.
