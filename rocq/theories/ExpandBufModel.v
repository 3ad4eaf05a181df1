(** Model of expand_buf.cpp: the growable text buffer.  Memory is a list of cells, [None] is
    a cell never written; [None] as a result is an access outside the buffer or a read of
    such a cell.  Sizes are unbounded (size_t never overflows) and malloc never fails. *)
From Verif Require Import Base.

(** expand_buf.h:4-8: [start] is offset 0, [size] the number of cells. *)
Record ebuf := mkebuf { eb_cells : list (option Z); eb_end : nat }.

(** expand_buf.cpp:13-23 [eb_init]; [None] is -1. *)
Definition eb_init (size : option nat) : ebuf :=
  mkebuf (repeat None (match size with Some n => n | None => 64%nat end)) 0.

Definition cell (l : list (option Z)) (i : nat) : option (option Z) := nth_error l i.
Fixpoint store (l : list (option Z)) (i : nat) (v : option Z) : option (list (option Z)) :=
  match l, i with
  | [], _ => None
  | _ :: l', O => Some (v :: l')
  | x :: l', S i' => match store l' i' v with Some r => Some (x :: r) | None => None end
  end.

(** expand_buf.cpp:58-59: doubling until [need] fits. *)
Fixpoint eb_grow (fuel size need : nat) : option nat :=
  match fuel with
  | O => None
  | S f => if (need <=? size)%nat then Some size else eb_grow f (2 * size) need
  end.

(** expand_buf.cpp:71-73: [n] bytes from offset [ptr] move [len] up, the last one first. *)
Fixpoint eb_shift (l : list (option Z)) (ptr n len : nat) : option (list (option Z)) :=
  match n with
  | O => Some l
  | S n' =>
    match cell l (ptr + n') with
    | None => None
    | Some v => match store l (ptr + n' + len) v with None => None | Some l' => eb_shift l' ptr n' len end
    end
  end.
(** C [strncpy]: [n] bytes, padded with NUL. *)
Fixpoint eb_strncpy (l : list (option Z)) (ptr : nat) (t : list Z) (n : nat) : option (list (option Z)) :=
  match n with
  | O => Some l
  | S n' =>
    let '(c, t') := match t with c :: t' => (c, t') | [] => (0, []) end in
    match store l ptr (Some c) with None => None | Some l' => eb_strncpy l' (S ptr) t' n' end
  end.

(** expand_buf.cpp:38-79 [eb_insert]: the buffer and the value returned; [offset] [None] is
    -1, [length] [None] is -1.  The case of a NULL text is not modelled. *)
Definition eb_insert (b : ebuf) (offset : option nat) (t : list Z) (length : option nat) : option (ebuf * Z) :=
  let ptr := match offset with None => eb_end b | Some o => o end in
  let len := match length with None => List.length t | Some n => n end in
  if (len =? 0)%nat then Some (b, 0)
  else
    let size := List.length (eb_cells b) in
    let need := (eb_end b + len)%nat in
    match (if (size <? need)%nat
           then eb_grow (S need) (if (size =? 0)%nat then 1%nat else size) need
           else Some size) with
    | None => None
    | Some size' =>
      let cells := eb_cells b ++ repeat None (size' - size) in
      match (if (ptr <? eb_end b)%nat then eb_shift cells ptr (eb_end b - ptr) len else Some cells) with
      | None => None
      | Some cells =>
        match eb_strncpy cells ptr t len with
        | None => None
        | Some cells =>
          Some (mkebuf cells need, (match offset with None => -1 | Some o => Z.of_nat o end) + Z.of_nat len)
        end
      end
    end.

(** expand_buf.cpp:26-28 [eb_append]. *)
Definition eb_append (b : ebuf) (t : list Z) (len : option nat) : option (ebuf * Z) := eb_insert b None t len.

(** expand_buf.cpp:88-95 [eb_overwrite]. *)
Definition eb_overwrite (b : ebuf) (offset : nat) (t : list Z) (length : option nat) : option ebuf :=
  match eb_strncpy (eb_cells b) offset t (match length with None => List.length t | Some n => n end) with
  | Some cells => Some (mkebuf cells (eb_end b))
  | None => None
  end.

(** expand_buf.cpp:102-109 [eb_erase]: the loop copies at most [length] bytes. *)
Fixpoint eb_erase_loop (l : list (option Z)) (cur n length end_ : nat) : option (list (option Z)) :=
  match n with
  | O => Some l
  | S n' =>
    if (cur + length <? end_)%nat then
      match cell l (cur + length) with
      | None => None
      | Some v => match store l cur v with None => None | Some l' => eb_erase_loop l' (S cur) n' length end_ end
      end
    else Some l
  end.
Definition eb_erase (b : ebuf) (offset length : nat) : option ebuf :=
  match eb_erase_loop (eb_cells b) offset length length (eb_end b) with
  | Some cells => Some (mkebuf cells (eb_end b - length))
  | None => None
  end.

(** expand_buf.cpp:117-119 [eb_get_char]. *)
Definition eb_get_char (b : ebuf) (offset : nat) : option Z :=
  match cell (eb_cells b) offset with Some (Some c) => Some c | _ => None end.

(** expand_buf.cpp:127-129 [eb_extract]: strndup stops at a NUL. *)
Fixpoint eb_read (l : list (option Z)) (n : nat) : option (list Z) :=
  match n with
  | O => Some []
  | S n' =>
    match l with
    | Some c :: l' => if c =? 0 then Some [] else match eb_read l' n' with Some t => Some (c :: t) | None => None end
    | _ => None
    end
  end.
Definition eb_extract (b : ebuf) : option (list Z) := eb_read (eb_cells b) (eb_end b).
