(** The listing (option -T): pass_one.cpp:38-108 and 116-148, the listing parts of
    pass_two.cpp:24-66 and 137-191, directive.cpp:340-360, main.cpp:86-91 and 161-186.
    The listing is kept apart from the state of the assembler: this file is the part of each of
    these functions that works on the listing, and takes what it needs of the rest (line
    numbers, addresses, the bytes that are written) as arguments.  Banners of files and macros
    (pass_one.cpp:380-415, 494-500) are left out. *)
From Verif Require Import Base State UtilsModel.

(** spasm.h:78-81, pass_one.cpp:25.  The buffer is a text, see C24. *)
Record listing := mklisting { g_buf : text; g_off : nat; g_width : nat; g_on : bool; g_done : bool }.
(** main.cpp:86-91. *)
Definition listing0 : listing := mklisting [] 0 0 true false.

(** expand_buf.cpp:43-83 [eb_insert]: an empty text gives the offset 0. *)
Definition list_insert (t : text) (g : listing) : listing :=
  match t with
  | [] => mklisting (g_buf g) 0 (g_width g) (g_on g) (g_done g)
  | _ => mklisting (firstn (g_off g) (g_buf g) ++ t ++ skipn (g_off g) (g_buf g)) (g_off g + length t) (g_width g) (g_on g) (g_done g)
  end.
(** expand_buf.cpp:92-99 [eb_overwrite], and pass_one.cpp:62-63. *)
Definition list_overwrite (t : text) (g : listing) : listing :=
  mklisting (firstn (g_off g) (g_buf g) ++ t ++ skipn (g_off g + length t) (g_buf g)) (g_off g + length t) (g_width g) (g_on g) (g_done g).
Definition set_off (o : nat) (g : listing) : listing := mklisting (g_buf g) o (g_width g) (g_on g) (g_done g).
Definition set_width (w : nat) (g : listing) : listing := mklisting (g_buf g) (g_off g) w (g_on g) (g_done g).
Definition set_on (b : bool) (g : listing) : listing := mklisting (g_buf g) (g_off g) (g_width g) b (g_done g).
Definition set_done (b : bool) (g : listing) : listing := mklisting (g_buf g) (g_off g) (g_width g) (g_on g) b.

(** pass_one.cpp:51-55: from a line break on to the next character that is no white space. *)
Fixpoint skip_space (fuel : nat) (buf : text) (off : nat) : nat :=
  match fuel with
  | O => off
  | S f => if isspace (nth off buf 0) then skip_space f buf (S off) else off
  end.
(** pass_one.cpp:38-66 [write_out]; [one] is pass_one.  spasm.h:45 NEWLINE. *)
Definition list_out (one : bool) (val : Z) (g : listing) : listing :=
  if g_on g then
    let g :=
      if one && Nat.leb 4 (g_width g) then list_insert (10 :: repeat 32 14) (set_width 0 g)
      else if one then g
      else
        let c := nth (g_off g) (g_buf g) 0 in
        if (c =? 10) || (c =? 13) then set_off (skip_space (length (g_buf g)) (g_buf g) (g_off g)) g else g in
    let t := hexw 2 (Z.land val 255) ++ [32] in
    let g := if one then list_insert t g else list_overwrite t g in
    set_width (S (g_width g)) g
  else g.

(** printf "%5d", and "%5d %02X:%04X" of a line number and an address that is not negative;
    the buffers text[32] are not checked. *)
Definition dec5 (n : Z) : text := let t := dec n in repeat 32 (5 - length t) ++ t.
Definition place (ln pc : Z) : text := dec5 ln ++ [32] ++ hexw 2 (Z.shiftr pc 16) ++ [58] ++ hexw 4 (Z.land pc 65535).
(** pass_one.cpp:125-138, the start of a line. *)
Definition list_begin (ln pc : Z) (g : listing) : listing :=
  let g := set_done false (set_width 0 g) in
  if g_on g then list_insert (place ln pc ++ [32]) g else g.
(** pass_one.cpp:82-108 [do_listing_for_line].  [start] is line_start and [ptr] the place where
    the next line starts, a later place in the same text; [old] is old_line_num. *)
Fixpoint list_pad (fuel : nat) (g : listing) : listing :=
  match fuel with
  | O => g
  | S f => if Nat.ltb (g_width g) 4 then list_pad f (set_width (S (g_width g)) (list_insert (zs "-  ") g)) else g
  end.
Fixpoint list_lines (fuel : nat) (old pc : Z) (start ptr : text) (g : listing) : listing * text :=
  match fuel with
  | O => (g, start)
  | S f =>
    let curr := skip_to_next_line start in
    if Nat.ltb (length ptr) (length curr) then
      let g := list_insert (seg start curr) g in
      list_lines f (old + 1) pc curr ptr (list_insert (place (old + 1) pc ++ repeat 32 13) g)
    else (g, start)
  end.
Definition list_end (old pc : Z) (start ptr : text) (g : listing) : listing :=
  let '(g, start) := list_lines (length start) old pc start ptr (list_pad 4 g) in
  let g := list_insert (seg start ptr) g in
  if last (seg start ptr) 0 =? 10 then g else list_insert [10] g.

(** What happens to the listing while a line is assembled: a byte is written, an expression is
    put off to the second pass (pass_two.cpp:43-47), [.list] and [.nolist] (directive.cpp:341-360).
    The expressions put off remember the offset and whether the listing is on. *)
Inductive event := Byte (v : Z) | Wait | TurnOn | TurnOff.
Definition list_event (e : event) (x : listing * list (nat * bool)) : listing * list (nat * bool) :=
  let '(g, notes) := x in
  match e with
  | Byte v => (list_out true v g, notes)
  | Wait => (g, notes ++ [(g_off g, g_on g)])
  | TurnOn => (set_on true (if g_on g then g else set_done true g), notes)
  | TurnOff => (set_on false (if g_on g then set_off (g_off g - 14) g else g), notes)
  end.
Definition list_events (l : list event) (x : listing * list (nat * bool)) : listing * list (nat * bool) :=
  fold_left (fun x e => list_event e x) l x.
(** pass_one.cpp:122-153, one round of the loop: the line number, the address before and after
    the line, the text from its start and from where the next round starts, and the events. *)
Record round := mkround { u_line : Z; u_pc : Z; u_after : Z; u_start : text; u_ptr : text; u_events : list event }.
Definition list_round (x : listing * list (nat * bool)) (u : round) : listing * list (nat * bool) :=
  let '(g, notes) := x in
  let '(g, notes) := list_events (u_events u) (list_begin (u_line u) (u_pc u) g, notes) in
  (if g_on g && negb (g_done g) then list_end (u_line u) (u_after u) (u_start u) (u_ptr u) g else g, notes).
Definition list_first (l : list round) : listing * list (nat * bool) := fold_left list_round l (listing0, []).

(** pass_two.cpp:146-185: the bytes an expression gets in the second pass, at its place. *)
Definition list_fill (g : listing) (x : (nat * bool) * list Z) : listing :=
  let '((off, on), l) := x in
  fold_left (fun g v => list_out false v g) l (set_on on (set_off off g)).
Definition list_second (notes : list (nat * bool)) (bytes : list (list Z)) (g : listing) : listing :=
  set_off (g_off g) (fold_left list_fill (combine notes bytes) g).
(** main.cpp:161-186: what is in the file. *)
Definition list_file (g : listing) : text := firstn (g_off g) (g_buf g).
Definition list_all (l : list round) (bytes : list (list Z)) : text :=
  let '(g, notes) := list_first l in list_file (list_second notes bytes g).
