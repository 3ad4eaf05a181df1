(** Model of bitmap.cpp: a BMP file included as source becomes data bytes.  The luminance is
    computed in IEEE double precision with the specification functions of
    Coq.Floats.SpecFloat (plain Coq, no axioms). *)
From Coq Require Import Floats.SpecFloat.
From Verif Require Import Base State UtilsModel ErrorsModel StorageModel ParserModel PassTwoModel.

(** Little-endian fields of a file; [None] past its end. *)
Definition byte_at (f : list Z) (i : Z) : option Z :=
  if i <? 0 then None else nth_error f (Z.to_nat i).
Definition le16 (f : list Z) (i : Z) : option Z :=
  match byte_at f i, byte_at f (i + 1) with
  | Some a, Some b => Some (a + 256 * b) | _, _ => None
  end.
Definition le32 (f : list Z) (i : Z) : option Z :=
  match le16 f i, le16 f (i + 2) with
  | Some a, Some b => Some (a + 65536 * b) | _, _ => None
  end.

(** BITMAPFILEHEADER and BITMAPINFOHEADER, bitmap.cpp:34-54: the fields that are used. *)
Record bmp := mkbmp {
  b_file : list Z; b_off : Z; b_isize : Z; b_width : Z; b_height : Z; b_bits : Z; b_comp : Z;
  b_used : Z }.
Definition read_bmp (f : list Z) : option bmp :=
  match le32 f 10, le32 f 14, le32 f 18, le32 f 22, le16 f 28, le32 f 30, le32 f 46, byte_at f 53 with
  | Some off, Some sz, Some w, Some h, Some bc, Some comp, Some used, Some _ =>
    Some (mkbmp f off sz (wrap32 w) (wrap32 h) bc comp used)
  | _, _, _, _, _, _, _, _ => None
  end.

(** bitmap.cpp:143-158 [IsFileBitmap].  A file of fewer than two bytes leaves the header
    uninitialised; it is taken not to be a bitmap. *)
Definition is_bitmap (f : list Z) : bool :=
  match f with 66 :: 77 :: _ => true | _ => false end.

(** RECT, bitmap.cpp:22-24. *)
Record rect := mkrect { r_top : Z; r_left : Z; r_right : Z; r_bottom : Z }.
Definition r_w (r : rect) : Z := r_right r - r_left r.
Definition r_h (r : rect) : Z := r_bottom r - r_top r.

(** RGBQUAD, bitmap.cpp:26-31. *)
Record rgb := mkrgb { q_red : Z; q_green : Z; q_blue : Z; q_res : Z }.
Definition rgb3_eqb (a b : rgb) : bool :=
  (q_blue a =? q_blue b) && (q_green a =? q_green b) && (q_red a =? q_red b).
Definition rgb_eqb (a b : rgb) : bool := rgb3_eqb a b && (q_res a =? q_res b).

(** IEEE doubles. *)
Definition dbl (m : positive) (e : Z) : spec_float := S754_finite false m e.
Definition of_int (n : Z) : spec_float := binary_normalize 53 1024 n 0 false.
Definition d_add := SFadd 53 1024.
Definition d_sub := SFsub 53 1024.
Definition d_mul := SFmul 53 1024.
Definition d_div := SFdiv 53 1024.
(** bitmap.cpp:68 LUMINANCE: the constants 0.2126, 0.7152, 0.0722 as doubles. *)
Definition k_red := d_div (dbl 7659722246231740 (-55)) (of_int 255).
Definition k_green := d_div (dbl 6441948906990757 (-53)) (of_int 255).
Definition k_blue := d_div (dbl 5202558289538397 (-56)) (of_int 255).
Definition luminance (q : rgb) : spec_float :=
  d_add (d_add (d_mul k_red (of_int (q_red q))) (d_mul k_green (of_int (q_green q))))
        (d_mul k_blue (of_int (q_blue q))).
(** Conversion to an integer type: toward zero; [None] for infinities and NaN. *)
Definition d_trunc (x : spec_float) : option Z :=
  match x with
  | S754_zero _ => Some 0
  | S754_finite s m e =>
    let a := if 0 <=? e then Z.pos m * 2 ^ e else Z.pos m / 2 ^ (- e) in
    Some (if s then - a else a)
  | _ => None
  end.
(** bitmap.cpp:260: (BYTE) ((0.99 - lum) * biOutputShades), 0.99 as a double; a result
    outside 0..255 is undefined. *)
Definition shade (shades : Z) (q : rgb) : option Z :=
  match d_trunc (d_mul (d_sub (dbl 8917127262193582 (-53)) (luminance q)) (of_int shades)) with
  | Some v => if (0 <=? v) && (v <=? 255) then Some v else None
  | None => None
  end.

(** C [strtok] on one of the delimiters of bitmap.cpp:83 and 420: comma, semicolon, x, space. *)
Definition tok_delim (c : Z) : bool := memb c (zs ",;x ").
Fixpoint strtok (cur : text) (s : text) : list text :=
  match s with
  | [] => match cur with [] => [] | _ => [rev cur] end
  | c :: s' =>
    if tok_delim c then match cur with [] => strtok [] s' | _ => rev cur :: strtok [] s' end
    else strtok (c :: cur) s'
  end.

(** bitmap.cpp:165: bytes per row in the file, padded to 32 bits. *)
Definition scan_width (b : bmp) : Z := Z.quot (b_width b * b_bits b + 31) 32 * 4.
(** bitmap.cpp:181: pixels per output row, padded to 8. *)
Definition row_size (r : rect) (min_w : Z) : Z :=
  Z.quot ((if r_w r >? min_w then r_w r else min_w) + 7) 8 * 8.

Definition split_rgb (v : Z) : rgb :=
  mkrgb (Z.land (Z.shiftr v 16) 255) (Z.land (Z.shiftr v 8) 255) (Z.land v 255) 0.

Section Bitmap.
Variable C : cfg.
Variable R : fns.

Definition opt {A} (w : ub) (o : option A) : M A :=
  match o with Some a => ret a | None => undef w end.

(** BITS_ACCESS (bitmap.cpp:175): a byte of the part of the file that was read. *)
Definition bits_at (b : bmp) (r : rect) (row i : Z) : M Z :=
  let k := row * scan_width b + i in
  if (0 <=? k) && (k <? scan_width b * r_h r)
  then opt UB_uninit (byte_at (b_file b) (b_off b + scan_width b * r_top r + k))
  else undef UB_oob.

(** bitmap.cpp:225-250: the colour of the pixel at bit offset [bit] of a row. *)
Fixpoint pixel_bytes (n : nat) (b : bmp) (r : rect) (row i acc : Z) : M Z :=
  match n with
  | O => ret acc
  | S n' => v <- bits_at b r row i ;; pixel_bytes n' b r row (i + 1) (u32 (Z.shiftl acc 8 + v))
  end.
Definition pixel (b : bmp) (pal : list rgb) (r : rect) (row bit : Z) : M rgb :=
  let bc := b_bits b in
  if (bc <? 16) || negb (b_used b =? 0) then
    let sh := 8 - bc - Z.rem bit 8 in
    if (sh <? 0) || (31 <=? bc) then undef UB_overflow
    else
      v <- bits_at b r row (Z.quot bit 8) ;;
      let mask := u8 (Z.shiftl (Z.shiftl 1 bc - 1) sh) in
      opt UB_oob (nth_error pal (Z.to_nat (Z.shiftr (Z.land v mask) sh)))
  else
    let cm := bc / 3 in
    v <- pixel_bytes (Z.to_nat (bc / 8)) b r row (Z.quot bit 8) 0 ;;
    if 31 <=? 2 * cm then undef UB_overflow
    else
      let m := Z.shiftl 1 cm - 1 in
      ret (mkrgb (u8 (Z.land v m)) (u8 (Z.land (Z.shiftr v cm) m))
                 (u8 (Z.land (Z.shiftr v (2 * cm)) m)) 0).

(** bitmap.cpp:218-266: output shade and mask bit of the pixel in column [col].  [row]
    counts from the bottom of the picture.  The reserved byte of rgbInv is never set, so a
    match of the other three bytes compares an uninitialised byte. *)
Definition cell (b : bmp) (pal : list rgb) (r : rect) (shades : Z) (msk : rgb) (inv : option rgb)
    (row col : Z) : M (Z * Z) :=
  let bc := b_bits b in
  let bit := r_left r * bc + col * bc in
  if (b_width b * bc <=? bit) || (r_right r * bc <=? bit) then ret (0, 1)
  else
    q <- pixel b pal r row bit ;;
    match inv with
    | Some i => if rgb3_eqb q i then undef UB_uninit else ret tt
    | None => ret tt
    end ;;;
    v <- opt UB_overflow (shade shades q) ;;
    ret (v, if rgb_eqb q msk then 1 else 0).

Fixpoint mapM {A B} (f : A -> M B) (l : list A) : M (list B) :=
  match l with
  | [] => ret []
  | a :: l' => b <- f a ;; r <- mapM f l' ;; ret (b :: r)
  end.
Definition zrange (n : Z) : list Z := map Z.of_nat (seq 0 (Z.to_nat n)).

(** Eight bits, most significant first (bitmap.cpp:291-297, 314-323). *)
Fixpoint pack8 (l : list Z) : list Z :=
  match l with
  | a :: b :: c :: d :: e :: f :: g :: h :: l' =>
    (128 * a + 64 * b + 32 * c + 16 * d + 8 * e + 4 * f + 2 * g + h) :: pack8 l'
  | _ => []
  end.
Definition pad_row (n : Z) (d : Z * Z) (l : list (Z * Z)) : list (Z * Z) :=
  l ++ repeat d (Z.to_nat n - length l).

Definition emit (v : Z) : M unit := write_out v ;;; add_pc 1.
Fixpoint emit_all (l : list Z) : M unit :=
  match l with [] => ret tt | v :: l' => emit v ;;; emit_all l' end.
(** bitmap.cpp:317-321. *)
Fixpoint emit_mask (l : list Z) : M unit :=
  match l with
  | [] => ret tt
  | v :: l' =>
    i <- define_with_value C R (zs "__BM_MSK_INV") 1 ;;
    emit (if i then Z.lnot v else v) ;;; emit_mask l'
  end.

(** bitmap.cpp:284: the bit planes, highest first.  log2 of 0 is minus infinity, whose
    conversion is undefined. *)
Definition planes (shades : Z) : option (list Z) :=
  if shades =? 0 then None else Some (rev (zrange (Z.log2 shades))).

(** bitmap.cpp:160-336 [handle_bitmap_internal].  The rows are listed top first, which is the
    order they are written in.  Products of the dimensions must stay within int. *)
Definition bitmap_internal (b : bmp) (pal : list rgb) (r : rect) : M unit :=
  min_w <- parse_f R (zs "__BM_MIN_W") ;;
  mv <- parse_f R (zs "__BM_MSK_RGB") ;;
  iv <- parse_f R (zs "__BM_INV_RGB") ;;
  sv <- parse_f R (zs "__BM_SHD") ;;
  let shades := sv mod 65536 in
  let w := if r_w r >? min_w then r_w r else min_w in
  let n := row_size r min_w in
  if (r_h r <? 0) || (n <? 0) || negb (in_int (b_width b * b_bits b + 31)) ||
     negb (in_int (scan_width b * r_h r)) || negb (in_int (n * r_h r)) ||
     negb (in_int (scan_width b * r_top r)) ||
     negb (in_int ((r_left r + w) * b_bits b))
  then undef UB_overflow
  else
    let inv := if iv =? -1 then None else Some (split_rgb iv) in
    rows <- mapM (fun i =>
              l <- mapM (cell b pal r shades (split_rgb mv) inv (r_h r - 1 - i)) (zrange w) ;;
              ret (pad_row n (0, 1) l)) (zrange (r_h r)) ;;
    ps <- opt UB_overflow (planes shades) ;;
    let image :=
      emit_all (concat (map (fun i =>
        concat (map (fun row => pack8 (map (fun c => Z.land (Z.shiftr (fst c) i) 1) row)) rows)) ps)) in
    let mask :=
      m <- define_with_value C R (zs "__BM_MSK") 1 ;;
      if m then emit_mask (concat (map (fun row => pack8 (map snd row)) rows)) else ret tt in
    first <- define_with_value C R (zs "__BM_MSK_1ST") 1 ;;
    if first then mask ;;; image else image ;;; mask.

(** bitmap.cpp:83-128: one token of the header format. *)
Definition header_token (r : rect) (p : text) : M unit :=
  (if eqbl_ci p (zs "w") then
     whenM (255 <? r_w r) show_warning ;;; write_out (r_w r)
   else if eqbl_ci p (zs "ww") then
     write_out (Z.land (r_w r) 255) ;;; add_pc 1 ;;; write_out (Z.shiftr (r_w r) 8)
   else if eqbl_ci p (zs "h") then
     whenM (255 <? r_h r) show_warning ;;; write_out (r_h r)
   else if eqbl_ci p (zs "hh") then
     write_out (Z.land (r_h r) 255) ;;; add_pc 1 ;;; write_out (Z.shiftr (r_h r) 8)
   else if eqbl_ci p (zs "b") then
     v <- parse_f R (zs "__BM_SHD") ;; write_out v
   else if eqbl_ci p (zs "s") || eqbl_ci p (zs "ss") then
     let one := Z.quot (r_w r + 7) 8 * r_h r in
     s4 <- define_with_value C R (zs "__BM_SHD") 4 ;;
     s8 <- (if s4 then ret false else define_with_value C R (zs "__BM_SHD") 8) ;;
     m <- define_with_value C R (zs "__BM_MASK") 1 ;;
     size <- int_res C ((if s4 then one * 2 else if s8 then one * 4 else one) + if m then one else 0) ;;
     if eqbl_ci p (zs "s") then whenM (255 <? size) show_warning ;;; write_out size
     else write_out (Z.land size 255) ;;; add_pc 1 ;;; write_out (Z.land (Z.shiftr size 8) 255)
   else show_warning ;;; write_out 0) ;;;
  add_pc 1.
Fixpoint header_tokens (r : rect) (l : list text) : M unit :=
  match l with [] => ret tt | p :: l' => header_token r p ;;; header_tokens r l' end.

(** bitmap.cpp:72-132 [handle_bitmap_header]. *)
Definition bitmap_header (r : rect) : M unit :=
  h <- define_with_value C R (zs "__BM_HDR") 1 ;;
  if h then
    d <- search_defines C (zs "__BM_HDR_FMT") true ;;
    match d with
    | None => ret tt
    | Some d =>
      d <- get_define d ;;
      t <- opt UB_null (d_contents d) ;;
      t <- reduce_string R t ;;
      header_tokens r (strtok [] t)
    end
  else ret tt.

(** bitmap.cpp:403-413 and 467-477: a picture wider than __BM_MIN_W is cut into strips. *)
Fixpoint strips (fuel : nat) (b : bmp) (pal : list rgb) (r : rect) (min_w w : Z) : M unit :=
  match fuel with
  | O => ret tt
  | S f =>
    if 0 <? w then
      let r := mkrect (r_top r) (r_left r) (r_left r + Z.min min_w w) (r_bottom r) in
      bitmap_internal b pal r ;;;
      strips f b pal (mkrect (r_top r) (r_left r + min_w) (r_right r) (r_bottom r)) min_w (w - min_w)
    else ret tt
  end.
Definition bitmap_body (b : bmp) (pal : list rgb) (r : rect) (min_w width : Z) : M unit :=
  if (0 <? min_w) && (min_w <? width)
  then strips (Z.to_nat width) b pal r min_w width
  else bitmap_internal b pal r.

Definition label_with (base : option text) (suffix : text) (v : Z) : M unit :=
  match base with
  | None => ret tt
  | Some n => add_label C (n ++ suffix) v ;;; ret tt
  end.

(** bitmap.cpp:446-479: the pictures of an image map, column by column from the top.  The
    loops need not end, so they take their fuel from [R].  The result is the value of
    bmp_num; [stop] is the [goto map_done]. *)
Fixpoint map_loop (fuel : nat) (b : bmp) (pal : list rgb) (base : option text)
    (width height padding left top count num : Z) : M Z :=
  match fuel with
  | O => nofuel
  | S f =>
    if b_width b <=? left then ret num
    else if top <? 0 then
      map_loop f b pal base width height padding (left + (width + 2 * padding))
        (b_height b - height - 2 * padding) count num
    else
      min_w <- parse_f R (zs "__BM_MIN_W") ;;
      if count =? 1 then ret num
      else
        pc <- get s_pc ;;
        label_with base (dec num) (wrap32 pc) ;;;
        let r := mkrect (top + padding) (left + padding) (left + padding + width)
                        (top + padding + height) in
        bitmap_header r ;;;
        bitmap_body b pal r min_w width ;;;
        map_loop f b pal base width height padding left (top - (height + 2 * padding))
          (if count =? 0 then 0 else count - 1) (num + 1)
  end.

Fixpoint parse_all (l : list text) : M (list Z) :=
  match l with [] => ret [] | p :: l' => v <- parse_f R p ;; r <- parse_all l' ;; ret (v :: r) end.

(** bitmap.cpp:368-370: the palette; entries past the end of the file are zero. *)
Definition palette (b : bmp) (n : Z) : list rgb :=
  map (fun i =>
         let g k := match byte_at (b_file b) (54 + 4 * i + k) with Some v => v | None => 0 end in
         mkrgb (g 2) (g 1) (g 0) (g 3)) (zrange n).

(** bitmap.cpp:338-491 [handle_bitmap]; [f] is the file. *)
Definition handle_bitmap (f : list Z) : M unit :=
  padding <- parse_f R (zs "__BM_PAD") ;;
  img_map <- search_defines C (zs "__BM_MAP") true ;;
  min_w <- parse_f R (zs "__BM_MIN_W") ;;
  b <- opt UB_uninit (read_bmp f) ;;
  if negb (b_isize b =? 40) || negb (b_comp b =? 0) then show_error
  else
    let ncol := if (b_bits b <? 16) || negb (b_used b =? 0)
                then (if b_used b =? 0 then Z.shiftl 1 (b_bits b) else b_used b) else 0 in
    if negb (Z.min (54 + 4 * ncol) (zlen f) =? b_off b) then ret tt
    else
      let pal := palette b ncol in
      last <- get s_last_label ;; labs <- get s_labels ;; pc <- get s_pc ;;
      base <- match last with
              | None => ret None
              | Some k =>
                l <- opt UB_dangling (tfind k labs) ;;
                ret (if u32 (l_value l) =? pc then Some (l_name l) else None)
              end ;;
      simple <- match img_map with
                | None => ret true
                | Some _ => v <- parse_f R (zs "__BM_MAP") ;; ret (v =? 0)
                end ;;
      match img_map, simple with
      | Some im, false =>
        d <- get_define im ;;
        t <- opt UB_null (d_contents d) ;;
        fmt <- reduce_string R (skip_ws t) ;;
        vs <- parse_all (strtok [] fmt) ;;
        let padding := if padding =? -1 then 0 else padding in
        let cols := nth 0 vs 0 in
        let rows := nth 1 vs 0 in
        let count := match nth_error vs 2 with Some v => v + 1 | None => 0 end in
        num <- (if (cols =? 0) && (rows =? 0) then show_error ;;; ret 1
                else if (cols =? 0) || (rows =? 0) then undef UB_overflow
                else
                  width <- int_res C (Z.quot (b_width b - cols * 2 * padding) cols) ;;
                  height <- int_res C (Z.quot (b_height b - rows * 2 * padding) rows) ;;
                  label_with base (zs "_WIDTH") width ;;;
                  label_with base (zs "_HEIGHT") height ;;;
                  map_loop (f_n R) b pal base width height padding 0
                    (b_height b - height - 2 * padding) count 1) ;;
        label_with base (zs "_COUNT") (num - 1) ;;;
        set_contents im (zs "0")
      | _, _ =>
        label_with base (zs "_WIDTH") (b_width b) ;;;
        label_with base (zs "_HEIGHT") (b_height b) ;;;
        let r := mkrect 0 0 (b_width b) (b_height b) in
        bitmap_header r ;;;
        bitmap_body b pal r min_w (b_width b)
      end.

End Bitmap.
