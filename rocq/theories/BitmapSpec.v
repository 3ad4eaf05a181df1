(** Specification of bitmap import: the layout of a BMP file, and the bytes documented for it. *)
From Verif Require Import Base State BitmapModel.

(** ** Bits and bytes *)
(** The lowest [d] bits of a number, most significant first. *)
Definition pixel_bits (d : nat) (v : Z) : list Z := map (fun i => v / 2 ^ Z.of_nat (d - 1 - i) mod 2) (seq 0 d).
(** The number written by bits, most significant first. *)
Definition number (bits : list Z) : Z := fold_left (fun a b => 2 * a + b) bits 0.
(** The first [n] bytes written by bits. *)
Fixpoint bytes_of (n : nat) (bits : list Z) : list Z :=
  match n with O => [] | S n' => number (firstn 8 bits) :: bytes_of n' (skipn 8 bits) end.
(** A list made [n] long. *)
Definition fill {A} (n : nat) (x : A) (l : list A) : list A := l ++ repeat x (n - length l).
(** Little-endian numbers of [n] bytes. *)
Definition le_bytes (n : nat) (v : Z) : list Z := map (fun i => v / 256 ^ Z.of_nat i mod 256) (seq 0 n).

(** ** Pictures and their files *)
(** Rows are listed from the top.  A pixel is an index into the palette, or 65536 times blue and 256
    times green and red. *)
Record picture := mkpicture { p_depth : nat; p_width : nat; p_palette : list rgb; p_rows : list (list Z) }.
Definition byte_rgb (q : rgb) : Prop := is_byte (q_red q) /\ is_byte (q_green q) /\ is_byte (q_blue q) /\ is_byte (q_res q).
Definition picture_ok (p : picture) : Prop :=
  In (p_depth p) [1; 2; 4; 8; 24]%nat /\
  Forall (fun row => length row = p_width p /\ Forall (fun v => 0 <= v < 2 ^ Z.of_nat (p_depth p)) row) (p_rows p) /\
  (p_depth p <> 24%nat -> Forall (Forall (fun v => v < zlen (p_palette p))) (p_rows p)) /\
  (p_depth p = 24%nat -> p_palette p = []) /\
  Forall byte_rgb (p_palette p).
Definition colour (p : picture) (v : Z) : rgb :=
  if Nat.eqb (p_depth p) 24 then mkrgb (v mod 256) (v / 256 mod 256) (v / 65536 mod 256) 0
  else nth (Z.to_nat v) (p_palette p) (mkrgb 0 0 0 0).
(** A row in the file: whole 32-bit words. *)
Definition scan (p : picture) : nat := 4 * ((p_width p * p_depth p + 31) / 32).
Definition file_row (p : picture) (row : list Z) : list Z :=
  bytes_of (scan p) (fill (8 * scan p) 0 (flat_map (pixel_bits (p_depth p)) row)).
Definition palette_bytes (p : picture) : list Z := flat_map (fun q => [q_blue q; q_green q; q_red q; q_res q]) (p_palette p).
(** What the header says, and what it may contain besides. *)
Record extras := mkextras { x_size : list Z; x_planes : list Z; x_image : list Z; x_important : list Z; x_used : Z }.
Definition extras_ok (p : picture) (x : extras) : Prop :=
  length (x_size x) = 8%nat /\ length (x_planes x) = 2%nat /\ length (x_image x) = 12%nat /\ length (x_important x) = 4%nat /\
  (x_used x = 0 /\ (p_depth p <> 24%nat -> zlen (p_palette p) = 2 ^ Z.of_nat (p_depth p)) \/
   0 < x_used x < 4294967296 /\ p_depth p <> 24%nat /\ zlen (p_palette p) = x_used x).
Definition bmp_file (p : picture) (x : extras) : list Z :=
  [66; 77] ++ x_size x ++ le_bytes 4 (54 + 4 * zlen (p_palette p)) ++ le_bytes 4 40 ++ le_bytes 4 (Z.of_nat (p_width p)) ++
  le_bytes 4 (zlen (p_rows p)) ++ x_planes x ++ le_bytes 2 (Z.of_nat (p_depth p)) ++ le_bytes 4 0 ++ x_image x ++
  le_bytes 4 (x_used x) ++ x_important x ++ palette_bytes p ++ flat_map (file_row p) (rev (p_rows p)).

(** ** The bytes documented *)
(** 0 is the brightest of [n] shades. The luminance is 0.2126 red + 0.7152 green + 0.0722 blue, of
    0 to 255 each. *)
Definition darkness (q : rgb) : Z := 2524500 - (2126 * q_red q + 7152 * q_green q + 722 * q_blue q).
Definition shade_of (n : Z) (q : rgb) : Z := Z.max 0 (darkness q * n / 2550000).
(** Not exactly between two shades. *)
Definition clear_cut (n : Z) (q : rgb) : Prop := darkness q * n <= 0 \/ darkness q * n mod 2550000 <> 0.
(** One row of bits, padded to whole bytes. *)
Definition bit_row (w : nat) (pad : Z) (bits : list Z) : list Z := let n := ((w + 7) / 8)%nat in bytes_of n (fill (8 * n) pad bits).
(** The bit planes of 2^[k] shades, the highest first, each with its rows from the top. *)
Definition image_bytes (p : picture) (k w : nat) (rows : list (list Z)) : list Z :=
  flat_map (fun i => flat_map (fun row => bit_row w 0 (map (fun v => shade_of (2 ^ Z.of_nat k) (colour p v) / 2 ^ Z.of_nat (k - 1 - i) mod 2) row)) rows) (seq 0 k).
(** The mask: 1 where the picture has the mask colour, and outside. *)
Definition same_colour (a b : rgb) : bool :=
  (q_red a =? q_red b) && (q_green a =? q_green b) && (q_blue a =? q_blue b) && (q_res a =? q_res b).
Definition mask_bytes (p : picture) (m : rgb) (w : nat) (rows : list (list Z)) : list Z :=
  flat_map (fun row => bit_row w 1 (map (fun v => if same_colour (colour p v) m then 1 else 0) row)) rows.
(** The part of a picture from column [left] to [right] and from [bottom] to [top], which count from
    the bottom. *)
Definition crop (p : picture) (left right bottom top : nat) : list (list Z) :=
  map (fun row => firstn (right - left) (skipn left row))
    (firstn (top - bottom) (skipn (length (p_rows p) - top) (p_rows p))).

(** The settings: the value of __BM_MIN_W, of __BM_MSK_RGB, the number of bit planes (__BM_SHD is a power of
    two), and whether __BM_MSK, __BM_MSK_1ST and __BM_MSK_INV are 1. *)
Record settings := mksettings { g_min : Z; g_colour : Z; g_planes : nat; g_mask : bool; g_first : bool; g_invert : bool }.
Definition mask_colour (v : Z) : rgb := mkrgb (v / 65536 mod 256) (v / 256 mod 256) (v mod 256) 0.
Definition out_width (g : settings) (left right : nat) : nat := Nat.max (right - left) (Z.to_nat (g_min g)).
Definition documented (p : picture) (g : settings) (left right bottom top : nat) : list Z :=
  let rows := crop p left right bottom top in
  let w := out_width g left right in
  let image := image_bytes p (g_planes g) w rows in
  let mask := if g_mask g then map (fun v => if g_invert g then 255 - v else v) (mask_bytes p (mask_colour (g_colour g)) w rows) else [] in
  if g_first g then mask ++ image else image ++ mask.

(** A whole picture, cut into strips when it is wider than __BM_MIN_W. *)
Definition whole (p : picture) (g : settings) : list Z :=
  let h := length (p_rows p) in
  let m := Z.to_nat (g_min g) in
  if (0 <? g_min g) && (g_min g <? Z.of_nat (p_width p))
  then flat_map (fun i => documented p g (i * m) (Nat.min (i * m + m) (p_width p)) 0 h) (seq 0 ((p_width p + m - 1) / m))
  else documented p g 0 (p_width p) 0 h.
