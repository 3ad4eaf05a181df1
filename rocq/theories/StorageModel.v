(** Model of storage.cpp, hash.cpp and list.cpp: labels, defines, macro arguments and
    anonymous labels. *)
From Verif Require Import Base State UtilsModel ErrorsModel.

(** C [strcmp] order on texts (bytes compared as unsigned). *)
Fixpoint text_ltb (a b : text) : bool :=
  match a, b with
  | _, [] => false
  | [], _ :: _ => true
  | x :: a', y :: b' => (x <? y) || ((x =? y) && text_ltb a' b')
  end.

(** hash.cpp:36-43 [hash_lookup]. *)
Fixpoint tfind {A} (k : text) (t : list (text * A)) : option A :=
  match t with
  | [] => None
  | (k', v) :: t' => if eqbl k k' then Some v else tfind k t'
  end.
(** hash.cpp:26-29 [hash_insert]: std::map keeps its keys in order (hash.h:13-24). *)
Fixpoint tset {A} (k : text) (v : A) (t : list (text * A)) : list (text * A) :=
  match t with
  | [] => [(k, v)]
  | (k', v') :: t' =>
      if eqbl k k' then (k', v) :: t'
      else if text_ltb k k' then (k, v) :: t
      else (k', v') :: tset k v t'
  end.
(** hash.cpp:51-60 [hash_remove]. *)
Fixpoint tdel {A} (k : text) (t : list (text * A)) : list (text * A) :=
  match t with
  | [] => []
  | (k', v') :: t' => if eqbl k k' then t' else (k', v') :: tdel k t'
  end.

Section Storage.
Variable C : cfg.

(** storage.cpp:277-281 and elsewhere: names are upper-cased unless case sensitive. *)
Definition key (name : text) : text := if c_case C then name else strup name.

(** storage.cpp:680-691 [search_labels]. *)
Definition search_labels (name : text) : M (option label) :=
  t <- get s_labels ;; ret (tfind (key name) t).

(** storage.cpp:353-360: the argument sets in order, innermost first. *)
Fixpoint find_arg (k : text) (sets : list (nat * list (text * define))) : option dref :=
  match sets with
  | [] => None
  | (id, t) :: sets' => match tfind k t with Some _ => Some (RL id k) | None => find_arg k sets' end
  end.
(** storage.cpp:343-374 [search_local_defines]; the second loop of the code is dead. *)
Definition search_local_defines (name : text) : M (option dref) :=
  a <- get s_args ;; ret (find_arg (key name) a).

Fixpoint find_set (id : nat) (sets : list (nat * list (text * define))) : option (list (text * define)) :=
  match sets with
  | [] => None
  | (i, t) :: sets' => if Nat.eqb i id then Some t else find_set id sets'
  end.
Fixpoint put_set (id : nat) (v : list (text * define)) (sets : list (nat * list (text * define))) :=
  match sets with
  | [] => []
  | (i, t) :: sets' => if Nat.eqb i id then (i, v) :: sets' else (i, t) :: put_set id v sets'
  end.

(** Reading and writing through a [define_t *]; a pointer to a removed define is dangling. *)
Definition lookup_ref (s : st) (r : dref) : option define :=
  match r with
  | RG n => tfind n (s_defines s)
  | RL id n => match find_set id (s_args s) with Some t => tfind n t | None => None end
  end.
Definition get_define (r : dref) : M define := fun s =>
  match lookup_ref s r with Some d => Ok d s | None => Undef UB_dangling end.
Definition put_define (r : dref) (d : define) : M unit := fun s =>
  match lookup_ref s r with
  | None => Undef UB_dangling
  | Some _ =>
    match r with
    | RG n => Ok tt (set_defines (tset n d (s_defines s)) s)
    | RL id n =>
      match find_set id (s_args s) with
      | Some t => Ok tt (set_args (put_set id (tset n d t) (s_args s)) s)
      | None => Undef UB_dangling
      end
    end
  end.

(** storage.cpp:479-484 [set_define] without redefinition: just set the contents. *)
Definition set_contents (r : dref) (t : text) : M unit :=
  d <- get_define r ;;
  put_define r (mkdefine (d_name d) (d_line d) (d_file d) (Some t) (d_args d)).

(** storage.cpp:418-431: the file name quoted, backslashes doubled.  The 2*MAX_PATH buffer
    bound is not modelled. *)
Definition quote_file (f : text) : text :=
  34 :: concat (map (fun c => if c =? 92 then [92; 92] else [c]) f) ++ [34].

(** storage.cpp:382-445 [search_defines]. *)
Definition search_defines (name : text) (local : bool) : M (option dref) :=
  let k := key name in
  a <- get s_args ;;
  g <- get s_defines ;;
  let r := match (if local then find_arg k a else None) with
           | Some r => Some r
           | None => match tfind k g with Some _ => Some (RG k) | None => None end
           end in
  (if eqbl k (zs "__LINE") then
     ln <- get s_line ;;
     match r with Some d => set_contents d (dec ln) | None => ret tt end
   else if eqbl k (zs "__FILE") then
     f <- get s_file ;;
     match r with Some d => set_contents d (quote_file f) | None => ret tt end
   else ret tt) ;;;
  ret r.

(** storage.cpp:267-340 [add_define]: the define and whether it is a redefinition; [None]
    is NULL. *)
Definition add_define (name : text) (local : bool) : M (option (dref * bool)) :=
  match name with
  | [] => set_error SPASM_ERR_NAME_EXPECTED ;;; ret None
  | _ =>
    let k := key name in
    conflict <- search_labels k ;;
    match conflict with
    | Some _ => show_error ;;; ret None
    | None =>
      found <- search_defines k local ;;
      match found with
      | Some r =>
        d <- get_define r ;;
        put_define r (mkdefine (d_name d) (d_line d) (d_file d) (d_contents d) []) ;;;
        ret (Some (r, true))
      | None =>
        ln <- get s_line ;; f <- get s_file ;; t <- get s_defines ;;
        upd (set_defines (tset k (mkdefine k ln f None []) t)) ;;;
        ret (Some (RG k, false))
      end
    end
  end.

(** storage.cpp:452-462 [remove_define]. *)
Definition remove_define (name : text) : M unit :=
  t <- get s_defines ;; upd (set_defines (tdel (key name) t)).

(** storage.cpp:474-507 [set_define].  When a define with contents is redefined, its own
    name in the new text is expanded, in a define table holding nothing else.
    [expand] is [expand_expr(.., false)]. *)
Definition set_define (expand : text -> M text) (r : dref) (t : text) (redefined : bool) : M unit :=
  d <- get_define r ;;
  match redefined, d_contents d with
  | true, Some old =>
    table <- get s_defines ;;
    upd (set_defines []) ;;;
    nd <- add_define (d_name d) false ;;
    match nd with
    | None => undef UB_null
    | Some (r', _) =>
      set_contents r' old ;;;
      result <- expand t ;;
      upd (set_defines table) ;;;
      set_contents r result
    end
  | _, _ => set_contents r t
  end.

(** storage.h:13 MAX_REUSABLES. *)
Definition MAX_REUSABLES : Z := 4096.

(** storage.cpp:513-516 [add_reusable]; writing past the array is undefined. *)
Definition add_reusable : M unit :=
  n <- get s_curr_reus ;; l <- get s_reus ;; pc <- get s_pc ;;
  if (0 <=? n) && (n <? MAX_REUSABLES) then
    upd (set_reus (firstn (Z.to_nat n) l ++ [pc])) ;;;
    upd (set_curr_reus (n + 1)) ;;; upd (set_total_reus (n + 1))
  else undef UB_oob.

(** storage.cpp:522-524 and 529-531. *)
Definition get_curr_reusable : M Z := n <- get s_curr_reus ;; ret (n - 1).
Definition set_curr_reusable (i : Z) : M unit := upd (set_curr_reus (i + 1)).

(** storage.cpp:536-543 [search_reusables]; an index below -1 reads outside the array. *)
Definition search_reusables (i : Z) : M Z :=
  total <- get s_total_reus ;; l <- get s_reus ;;
  if (i =? -1) || (total <=? i) then show_error ;;; ret 0
  else if i <? 0 then undef UB_oob
  else ret (nth (Z.to_nat i) l 0).

(** storage.cpp:558-609 [add_label]; the key of the label, or [None] for NULL. *)
Definition add_label (name : text) (value : Z) : M (option text) :=
  if c_counter C then ret None
  else
    let k := key name in
    conflict <- search_defines k true ;;
    match conflict with
    | Some _ => show_error ;;; ret None
    | None =>
      t <- get s_labels ;;
      match tfind k t with
      | Some l =>
        (if value =? l_value l then ret tt
         else upd (set_labels (tset k (mklabel (l_name l) (l_line l) (l_file l) value) t)) ;;;
              show_warning) ;;;
        ret (Some k)
      | None =>
        ln <- get s_line ;; f <- get s_file ;;
        upd (set_labels (tset k (mklabel k ln f value) t)) ;;;
        ret (Some k)
      end
    end.

(** [last_label->value = value] (pass_one.cpp:251, directive.cpp:371). *)
Definition set_label_value (k : text) (value : Z) : M unit :=
  t <- get s_labels ;;
  match tfind k t with
  | Some l => upd (set_labels (tset k (mklabel (l_name l) (l_line l) (l_file l) value) t))
  | None => undef UB_dangling
  end.

(** storage.cpp:617-620 [add_arg_set]. *)
Definition add_arg_set : M nat :=
  a <- get s_args ;; id <- get s_nextid ;;
  upd (set_args ((id, []) :: a)) ;;; upd (set_nextid (S id)) ;;; ret id.

(** storage.cpp:628-652 [add_arg]. *)
Definition add_arg (name : text) (value : option text) (id : nat) : M unit :=
  let k := key name in
  a <- get s_args ;; ln <- get s_line ;; f <- get s_file ;;
  match find_set id a with
  | Some t => upd (set_args (put_set id (tset k (mkdefine k ln f value []) t) a))
  | None => undef UB_dangling
  end.

(** storage.cpp:660-671 [remove_arg_set] and list.cpp:69-85 [list_remove]. *)
Fixpoint del_set (id : nat) (sets : list (nat * list (text * define))) :=
  match sets with
  | [] => []
  | (i, t) :: sets' => if Nat.eqb i id then sets' else (i, t) :: del_set id sets'
  end.
Definition remove_arg_set (set : option nat) : M unit :=
  match set with
  | None => ret tt
  | Some id =>
    a <- get s_args ;;
    match find_set id a with
    | Some _ => upd (set_args (del_set id a))
    | None => undef UB_dangling
    end
  end.

End Storage.

(** storage.cpp:189-214 [init_storage]: the predefined names; [file] is [curr_input_file],
    and [line_num] is 0. *)
Definition builtin_define (file name contents : text) (args : list text) :
    list (text * define) -> list (text * define) :=
  tset name (mkdefine name 0 file (Some contents) args).
Definition init_defines (file : text) : list (text * define) :=
  let builtin := builtin_define file in
  builtin (zs "GETC") (zs "(0)") [zs "__A"; zs "__N"]
  (builtin (zs "RGB") (zs "((__R) << 16)|((__G) << 8)|(__B)") [zs "__R"; zs "__G"; zs "__B"]
  (builtin (zs "__BM_MSK_RGB") (zs "RGB(0, 255, 0)") []
  (builtin (zs "__BM_SHD") (zs "2") []
  (builtin (zs "FALSE") (zs "0") []
  (builtin (zs "TRUE") (zs "1") []
  (builtin (zs "__FILE") (zs "Init") []
  (builtin (zs "__LINE") (zs "0") []
  (builtin (zs "SPASMVER") (zs "2") []
  (builtin (zs "SPASM") (zs "1") [] [])))))))))
.

(** C [strcasecmp] order. *)
Fixpoint ci_compare (a b : text) : comparison :=
  match a, b with
  | [], [] => Eq
  | [], _ :: _ => Lt
  | _ :: _, [] => Gt
  | x :: a', y :: b' =>
      match tolower x ?= tolower y with Eq => ci_compare a' b' | c => c end
  end.

(** storage.cpp:88-103 and 108-131: insertion into the label list, in strcasecmp order,
    before the first entry that is not smaller. *)
Fixpoint lab_insert (e : text * Z) (l : list (text * Z)) : list (text * Z) :=
  match l with
  | [] => [e]
  | x :: l' =>
      match ci_compare (fst e) (fst x) with
      | Gt => x :: lab_insert e l'
      | _ => e :: l
      end
  end.

(** storage.cpp:69-76: one line per entry, "%s = $%.4X\n" of the value as unsigned. *)
Definition lab_line (e : text * Z) : text :=
  fst e ++ zs " = $" ++ hexw 4 (u32 (snd e)) ++ [10].
