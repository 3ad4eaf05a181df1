(** Model of export.cpp: the output file formats.  [intelhex] is in IhexModel.v. *)
From Verif Require Import Base State UtilsModel ErrorsModel PassTwoModel IhexModel.

(** export.cpp:77-93.  The order is that of [enum calc_type] and of [extensions]. *)
Inductive calc_type :=
  | TYPE_73P | TYPE_82P | TYPE_83P | TYPE_8XP | TYPE_8XV | TYPE_85P | TYPE_86P | TYPE_85S
  | TYPE_86S | TYPE_8XK | TYPE_ROM | TYPE_HEX | TYPE_BIN.
Definition extensions : list (text * calc_type) :=
  [ (zs "73P", TYPE_73P); (zs "82P", TYPE_82P); (zs "83P", TYPE_83P); (zs "8XP", TYPE_8XP);
    (zs "8XV", TYPE_8XV); (zs "85P", TYPE_85P); (zs "86P", TYPE_86P); (zs "85S", TYPE_85S);
    (zs "86S", TYPE_86S); (zs "8XK", TYPE_8XK); (zs "ROM", TYPE_ROM); (zs "HEX", TYPE_HEX);
    (zs "BIN", TYPE_BIN) ].

(** export.cpp:64-74 [typearray]: the four bytes of a type with a calculator header. *)
Definition typearray (calc : calc_type) : list Z :=
  match calc with
  | TYPE_73P => zs "73*" ++ [11]
  | TYPE_82P => zs "82*" ++ [11]
  | TYPE_83P => zs "83*" ++ [11]
  | TYPE_8XP => zs "83F" ++ [13]
  | TYPE_8XV => zs "83F" ++ [13]
  | TYPE_85P => zs "85*" ++ [0]
  | TYPE_86P => zs "86*" ++ [12]
  | TYPE_85S => zs "85*" ++ [0]
  | TYPE_86S => zs "86*" ++ [12]
  | _ => []
  end.

(** Comparisons with the enumeration: calc < TYPE_85P, calc >= TYPE_85S for the types that
    reach makeprgm. *)
Definition before_85P (calc : calc_type) : bool :=
  match calc with TYPE_73P | TYPE_82P | TYPE_83P | TYPE_8XP | TYPE_8XV => true | _ => false end.
Definition from_85S (calc : calc_type) : bool :=
  match calc with TYPE_85S | TYPE_86S => true | _ => false end.
Definition is_82P (calc : calc_type) : bool := match calc with TYPE_82P => true | _ => false end.
Definition is_83P (calc : calc_type) : bool := match calc with TYPE_83P => true | _ => false end.
Definition is_85P (calc : calc_type) : bool := match calc with TYPE_85P => true | _ => false end.
Definition is_85S (calc : calc_type) : bool := match calc with TYPE_85S => true | _ => false end.
Definition is_86P (calc : calc_type) : bool := match calc with TYPE_86P => true | _ => false end.
Definition is_8XP (calc : calc_type) : bool := match calc with TYPE_8XP => true | _ => false end.
Definition is_8XV (calc : calc_type) : bool := match calc with TYPE_8XV => true | _ => false end.

(** export.cpp:201-208 [makerom]. *)
Definition ROM_SIZE : nat := 512 * 1024.
Definition makerom (data : list Z) : list Z := data ++ repeat 255 (ROM_SIZE - length data).

(** export.cpp:645-658 [alphanumeric]: the name with letters in upper case (only the first one
    for a .8xv), and the number of warnings shown. *)
Fixpoint alphanumeric (force_upper allow_lower : bool) (s : text) : text * Z :=
  match s with
  | [] => ([], 0)
  | c :: s' =>
    let c := if force_upper && islower c then c - 32 else c in
    let '(t, w) := alphanumeric (force_upper && negb allow_lower) allow_lower s' in
    (c :: t, if isalnum c then w else w + 1)
  end.

(** export.cpp:477-490: the part after the last slash or backslash, the first character not
    looked at. *)
Fixpoint after_last_slash (s : text) : option text :=
  match s with
  | [] => None
  | c :: s' =>
    match after_last_slash s' with
    | Some r => Some r
    | None => if (c =? 47) || (c =? 92) then Some s' else None
    end
  end.
Definition base_name (s : text) : text :=
  match after_last_slash (tl s) with Some r => r | None => s end.

(** export.cpp:472-499: the name stored in the file. *)
Definition prgm_name (calc : calc_type) (prgmname : text) : text :=
  if is_82P calc then 220 :: firstn 254 prgmname
  else
    let b := base_name prgmname in
    if before_85P calc then fst (alphanumeric true (is_8XV calc) b) else b.

(** [fputc]: the byte written. *)
Definition byte_of (z : Z) : Z := u8 z.
Definition le2 (z : Z) : list Z := [u8 z; u8 (Z.shiftr z 8)].
Definition sum (l : list Z) : Z := fold_right Z.add 0 l.

(** export.cpp:58-60 [comment]: 42 bytes, zero padded. *)
Definition comment : list Z :=
  let t := zs "File generated by spasm" in t ++ repeat 0 (42 - length t).

(** export.cpp:500-511, 553: the value of [size] when the length fields are written. *)
Definition prgm_size0 (calc : calc_type) (n : Z) : Z :=
  (if is_83P calc then 2 * n + 9 else n) + 2 + (if is_86P calc then 2 else 0).
Definition prgm_size (calc : calc_type) (n : Z) : Z :=
  prgm_size0 calc n + (if is_82P calc then 3 else 0).

(** export.cpp:611-632: the bytes of the program proper. *)
Definition prgm_prefix (calc : calc_type) : list Z :=
  if is_86P calc then [142; 40] else if is_82P calc then [213; 0; 17] else [].
Definition trailer83 : list Z := [63; 212; 63; 48; 48; 48; 48; 63; 212].
Definition prgm_body (calc : calc_type) (data : list Z) : list Z :=
  if is_83P calc then flat_map (fun b => hexw 2 b) data ++ trailer83 else data.

(** export.cpp:521-642: the whole file.  [hdr] is everything before the data section;
    [summed] collects, in the order of the C++, the bytes added to the checksum. *)
Definition makeprgm_bytes (calc : calc_type) (prgmname : text) (data : list Z) : list Z :=
  let nm := prgm_name calc prgmname in
  let size := prgm_size calc (zlen data) in
  let ty := typearray calc in
  let hdr := zs "**TI" ++ firstn 3 ty ++ (if is_85P calc then [42; 26; 12; 10] else [42; 26; 10; 0])
             ++ comment in
  let temp := if is_85P calc then size + 8 + zlen nm
              else size + 15 + (if is_8XP calc || is_8XV calc then 2 else 0) + (if is_86P calc then 1 else 0) in
  let first := if is_85P calc then byte_of (6 + zlen nm) else byte_of (nth 3 ty 0) in
  let kind := if before_85P calc then [if is_8XV calc then 21 else 6]
              else [(if from_85S calc then 12 else 18); byte_of (zlen nm)] in
  let nm8 := firstn 8 nm in
  let pad := if is_85P calc || is_85S calc then [] else repeat 0 (8 - length nm8) in
  let two := if is_8XP calc || is_8XV calc then [0; 0] else [] in
  let tail := le2 size ++ le2 (size - 2) ++ prgm_prefix calc ++ prgm_body calc data in
  let chksum := first + sum (le2 size) + sum kind + sum nm8 + sum tail in
  hdr ++ le2 temp ++ [first; 0] ++ le2 size ++ kind ++ nm8 ++ pad ++ two ++ tail ++ le2 chksum.

(** export.cpp:512-519, 577-579, 590-601 and 645-658: the warnings of [makeprgm].  Those of
    [show_warning] change the exit status only; [set_warning] records a problem. *)
Definition makeprgm_warnings (ez80 : bool) (calc : calc_type) (prgmname : text) (data : list Z) : M unit :=
  let nm := prgm_name calc prgmname in
  let size := prgm_size0 calc (zlen data) in
  let bad_name := if before_85P calc && negb (is_82P calc)
                  then snd (alphanumeric true (is_8XV calc) (base_name prgmname)) else 0 in
  whenM (0 <? bad_name) show_warning ;;;
  whenM (24575 <? size)
    (if 65535 <? size then set_warning SPASM_WARN_SIGNER_FILE_SIZE_64KB
     else whenM (negb ez80) (set_warning SPASM_WARN_SIGNER_FILE_SIZE_24KB)) ;;;
  whenM (before_85P calc && negb (is_82P calc) && negb (isupper (hd0 nm))) show_warning ;;;
  let header := nth 0 data 0 * 256 + nth 1 data 0 in
  whenM (is_8XP calc && (if ez80 then negb (header =? 61307)
                         else negb (header =? 47981) && negb (header =? 61289))) show_warning.

(** export.cpp:353-365 [findfield]: 0 if absent.  Positions past the end of [buf] read as
    zero: the C++ buffer has 256 zero bytes there, more than one field can skip. *)
Fixpoint findfield (fuel : nat) (byte : Z) (buf : list Z) (pnt : nat) : nat :=
  match fuel with
  | O => O
  | S f =>
    if nth pnt buf 0 =? 128 then
      if nth (S pnt) buf 0 =? byte then S (S pnt)
      else findfield f byte buf (S (S pnt) + Z.to_nat (Z.land (nth (S pnt) buf 0) 15))
    else O
  end.
(** export.cpp:373-388 [findfield_flex]: position and size. *)
Fixpoint findfield_flex (fuel : nat) (prefix : Z) (buf : list Z) (pnt : nat) : option (nat * nat) :=
  match fuel with
  | O => None
  | S f =>
    if nth pnt buf 0 =? 128 then
      let b := nth (S pnt) buf 0 in
      if Z.land b 240 =? Z.land prefix 240 then Some (S (S pnt), Z.to_nat (Z.land b 15))
      else findfield_flex f prefix buf (S (S pnt) + Z.to_nat (Z.land b 15))
    else None
  end.

(** mpz_import with order -1: little-endian. *)
Fixpoint from_le (l : list Z) : Z :=
  match l with [] => 0 | b :: l' => b + 256 * from_le l' end.

(** export.cpp:22-30 [nbuf]. *)
Definition sig_n : Z := from_le
  [ 173; 36; 49; 218; 34; 151; 228; 23;
    94; 172; 97; 163; 21; 79; 163; 216;
    71; 17; 87; 148; 221; 51; 10; 183;
    255; 54; 186; 89; 254; 218; 25; 95;
    234; 124; 22; 116; 59; 215; 188; 237;
    138; 13; 168; 133; 229; 229; 195; 77;
    91; 242; 13; 10; 179; 239; 145; 129;
    237; 57; 186; 44; 77; 137; 142; 135 ].
(** export.cpp:31-35 [pbuf]. *)
Definition sig_p : Z := from_le
  [ 91; 46; 84; 233; 181; 193; 254; 38;
    206; 147; 38; 20; 120; 211; 135; 63;
    63; 196; 27; 255; 241; 245; 249; 52;
    215; 165; 121; 58; 67; 193; 194; 28 ].
(** export.cpp:36-41 [qbuf]. *)
Definition sig_q : Z := from_le
  [ 151; 247; 112; 123; 148; 7; 155; 115;
    133; 135; 32; 191; 109; 73; 9; 171;
    59; 237; 161; 186; 155; 147; 17; 43;
    4; 19; 64; 161; 110; 213; 151; 182;
    4 ].
(** export.cpp:44-48 [qpowpbuf]. *)
Definition sig_qpowp : Z := from_le
  [ 163; 130; 150; 175; 61; 221; 155; 148;
    174; 160; 47; 44; 227; 139; 205; 217;
    201; 17; 117; 79; 0; 228; 223; 71;
    56; 205; 152; 22; 71; 245; 43; 15 ].
(** export.cpp:50-54 [p14buf]. *)
Definition sig_p14 : Z := from_le
  [ 151; 11; 85; 122; 109; 176; 191; 137;
    243; 164; 9; 5; 222; 244; 225; 207;
    15; 241; 198; 127; 124; 125; 62; 205;
    117; 105; 158; 206; 80; 176; 48; 7 ].
(** export.cpp:56-61 [q14buf]. *)
Definition sig_q14 : Z := from_le
  [ 230; 61; 220; 30; 229; 193; 230; 92;
    225; 33; 200; 111; 91; 82; 194; 234;
    78; 123; 168; 238; 230; 100; 196; 10;
    193; 4; 80; 168; 91; 245; 165; 45;
    1 ].

(** GMP [mpz_powm] for a positive exponent. *)
Fixpoint powm_pos (b : Z) (e : positive) (m : Z) : Z :=
  match e with
  | xH => b mod m
  | xO e' => let h := powm_pos b e' m in (h * h) mod m
  | xI e' => let h := powm_pos b e' m in (((h * h) mod m) * b) mod m
  end.
Definition powm (b e m : Z) : Z :=
  match e with Zpos p => powm_pos b p m | _ => 1 mod m end.

(** GMP [mpz_legendre(a, p) == 1], computed by Euler's criterion: the library's own algorithm
    is not modelled, only this documented meaning. *)
Definition is_residue (a p : Z) : bool := powm a ((p - 1) / 2) p =? 1.

(** export.cpp:390-463 [siggen]: the signature and [f]. *)
Definition siggen (hash : list Z) : Z * Z :=
  let m := from_le hash * 256 + 1 in
  let lp := if is_residue m sig_p then 0 else 1 in
  let lq := if is_residue m sig_q then 1 else 0 in
  let f := lp + lq + lq in
  let m := if lp =? lq then m * 2 else m in
  let m := if lq =? 0 then sig_n - m else m in
  let r := powm m sig_p14 sig_p in
  let s := powm m sig_q14 sig_q in
  ((((r - s) * sig_qpowp) mod sig_p) * sig_q + s, f).

(** export.cpp:448-450: hexadecimal digits halved, rounded up; mpz_export writes the bytes
    least significant first.  A zero signature writes nothing, over a zero byte. *)
Fixpoint to_le (n : nat) (z : Z) : list Z :=
  match n with O => [] | S n' => z mod 256 :: to_le n' (z / 256) end.
Definition siglength (z : Z) : nat := Nat.div (length (hexmin z) + 1) 2.

(** export.cpp:305-317: the 96 bytes after the program. *)
Definition sig_block (hash : list Z) : list Z :=
  let '(sig, f) := siggen hash in
  let t := [2; 45; Z.of_nat (siglength sig)] ++ to_le (siglength sig) sig ++
           (if f =? 0 then [0] else [1; f]) in
  t ++ repeat 255 (96 - length t).

(** Assignment to elements of a buffer. *)
Fixpoint set_at (i : nat) (v : list Z) (l : list Z) : list Z :=
  match v with [] => l | b :: v' => set_at (S i) v' (put_at i b l) end.
Definition be4 (z : Z) : list Z :=
  [u8 (Z.shiftr z 24); u8 (Z.shiftr z 16); u8 (Z.shiftr z 8); u8 z].
Definition le4 (z : Z) : list Z := [u8 z; u8 (Z.shiftr z 8); u8 (Z.shiftr z 16); u8 (Z.shiftr z 24)].

(** export.cpp:12-20 [header8xk] with the name length and name filled in. *)
Definition header8xk (nm : list Z) : list Z :=
  zs "**TIFL**" ++ [1; 1; 1; 136; 1; 1; 25; 151] ++ [zlen nm] ++ nm ++ repeat 0 (8 - length nm).

(** export.cpp:233-286: the checks and the fields filled in; [inl] is an error code, [inr] the
    program with its fields, the page count and the name.  The buffer is the program with 256
    zero bytes after it. *)
Definition app_fields (data : list Z) : Z + (list Z * Z * list Z) :=
  let size := zlen data in
  let tempnum := (size + 96) mod 16384 in
  if (negb (tempnum =? 0)) && (tempnum <? 97) && (16384 <? size) then inl SPASM_ERR_SIGNER_ROOM_FOR_SIG
  else if negb ((nth 0 data 0 =? 128) && (nth 1 data 0 =? 15)) then inl SPASM_ERR_SIGNER_MISSING_LENGTH
  else
    let buf := set_at 2 (be4 (u32 (size - 6))) (data ++ repeat 0 256) in
    let fuel := S (length buf) in
    let pnt := findfield fuel 18 buf 6 in
    if Nat.eqb pnt 0 || negb (nth pnt buf 0 =? 1) || negb (nth (S pnt) buf 0 =? 4)
    then inl SPASM_ERR_SIGNER_PRGM_TYPE
    else
      let pnt := findfield fuel 129 buf 6 in
      if Nat.eqb pnt 0 then inl SPASM_ERR_SIGNER_MISSING_PAGES
      else
        let pages := Z.shiftr size 14 + (if Z.land size 16383 =? 0 then 0 else 1) in
        let buf := put_at pnt (u8 pages) buf in
        match findfield_flex fuel 64 buf 6 with
        | None => inl SPASM_ERR_SIGNER_MISSING_NAME
        | Some (pnt, sz) =>
          inr (firstn (length data) buf, pages, map (fun i => nth (pnt + i) buf 0) (seq 0 (Nat.min sz 8)))
        end.

(** export.cpp:319-334: the file after the checks.  [prog] is the program with its fields. *)
Definition app_file (md5 : list Z -> list Z) (prog : list Z) (pages : Z) (nm : list Z) : list Z :=
  let image := prog ++ sig_block (md5 prog) in
  let total := zlen image in
  let rest := Z.land total 31 in
  let len := 77 * Z.shiftr total 5 + pages * 17 + 11 + (if rest =? 0 then 0 else rest * 2 + 13) in
  header8xk nm ++ repeat 0 23 ++ [115; 36] ++ repeat 0 24 ++ le4 len ++ intelhex image.

(** export.cpp:214-348 [makeapp]: on an error the file stays empty.  When the fields the
    header asks for lie past the end of a very short program they are written to the spare
    bytes and overwritten by the signature, as here. *)
Definition makeapp (md5 : list Z -> list Z) (data : list Z) : M (list Z) :=
  let size := zlen data in
  let tempnum := (size + 96) mod 16384 in
  let warn := negb (tempnum =? 0) && (tempnum <? 1024) && negb (Z.shiftr (size + 96) 14 =? 0) in
  match app_fields data with
  | inl code =>
    whenM (warn && negb (code =? SPASM_ERR_SIGNER_ROOM_FOR_SIG)) (set_warning SPASM_WARN_SMALL_LAST_PAGE) ;;;
    set_error code ;;; ret []
  | inr (prog, pages, nm) =>
    whenM warn (set_warning SPASM_WARN_SMALL_LAST_PAGE) ;;; ret (app_file md5 prog pages nm)
  end.

(** export.cpp:121-139: the text after the last '.', unless that is the first character. *)
Fixpoint after_last (c : Z) (s : text) : option text :=
  match s with
  | [] => None
  | x :: s' =>
    match after_last c s' with
    | Some r => Some r
    | None => if x =? c then Some s' else None
    end
  end.
Fixpoint find_ext (ext : text) (l : list (text * calc_type)) : option calc_type :=
  match l with
  | [] => None
  | (e, t) :: l' => if eqbl_ci ext e then Some t else find_ext ext l'
  end.
Definition file_ext (name : text) : option text := after_last 46 (tl name).
Definition file_stem (name : text) : text :=
  match name with
  | [] => []
  | c :: s => match before_last 46 s with Some r => c :: r | None => name end
  end.

(** export.cpp:108-199 [write_file]: the output file can always be opened.  [mem] and [len] are
    the output buffer and the output position.  A position before the buffer writes an empty
    binary file; in other formats, and past the end of the buffer, it is undefined. *)
Definition image_of (mem : list Z) (len : Z) : list Z :=
  firstn (Z.to_nat len) (mem ++ repeat 0 (Z.to_nat len - length mem)).
Definition write_file (C : cfg) (mem : list Z) (len : Z) (filename : text) : M unit :=
  upd (set_file (zs "exporter")) ;;; upd (set_line (-1)) ;;;
  calc <- match file_ext filename with
          | None => ret TYPE_BIN
          | Some ext =>
            match find_ext ext extensions with
            | Some t => ret t
            | None => set_warning SPASM_WARN_UNKNOWN_EXTENSION ;;; ret TYPE_BIN
            end
          end ;;
  if OUTPUT_BUF_SIZE <? len then undef UB_outbuf
  else
    let data := image_of mem len in
    let stem := file_stem filename in
    out <- match calc with
           | TYPE_BIN => ret data
           | _ =>
             if len <? 0 then undef UB_outbuf
             else
               match calc with
               | TYPE_BIN => ret data
               | TYPE_ROM => ret (makerom data)
               | TYPE_HEX => ret (intelhex data)
               | TYPE_8XK => makeapp (c_md5 C) data
               | _ => makeprgm_warnings (c_ez80 C) calc stem data ;;; ret (makeprgm_bytes calc stem data)
               end
           end ;;
    l <- get s_outfiles ;;
    upd (set_outfiles ((filename, out) :: l)) ;;;
    upd (set_file []).
