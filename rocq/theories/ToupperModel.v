(** Model of modp_ascii.cpp: upper-casing four characters at a time (modp_toupper_copy), the
    routine behind [strup] (utils.cpp:627-638).  Words are read and written little-endian;
    the pointer casts are taken to be harmless. *)
From Verif Require Import Base.

(** modp_ascii.cpp:53-80 [gsToUpperMap]. *)
Definition to_upper_map : list Z :=
  [ 0; 1; 2; 3; 4; 5; 6; 7; 8; 9; 10; 11; 12; 13; 14; 15;
    16; 17; 18; 19; 20; 21; 22; 23; 24; 25; 26; 27; 28; 29; 30; 31;
    32; 33; 34; 35; 36; 37; 38; 39; 40; 41; 42; 43; 44; 45; 46; 47;
    48; 49; 50; 51; 52; 53; 54; 55; 56; 57; 58; 59; 60; 61; 62; 63;
    64; 65; 66; 67; 68; 69; 70; 71; 72; 73; 74; 75; 76; 77; 78; 79;
    80; 81; 82; 83; 84; 85; 86; 87; 88; 89; 90; 91; 92; 93; 94; 95;
    96; 65; 66; 67; 68; 69; 70; 71; 72; 73; 74; 75; 76; 77; 78; 79;
    80; 81; 82; 83; 84; 85; 86; 87; 88; 89; 90; 123; 124; 125; 126; 127;
    128; 129; 130; 131; 132; 133; 134; 135; 136; 137; 138; 139; 140; 141; 142; 143;
    144; 145; 146; 147; 148; 149; 150; 151; 152; 153; 154; 155; 156; 157; 158; 159;
    160; 161; 162; 163; 164; 165; 166; 167; 168; 169; 170; 171; 172; 173; 174; 175;
    176; 177; 178; 179; 180; 181; 182; 183; 184; 185; 186; 187; 188; 189; 190; 191;
    192; 193; 194; 195; 196; 197; 198; 199; 200; 201; 202; 203; 204; 205; 206; 207;
    208; 209; 210; 211; 212; 213; 214; 215; 216; 217; 218; 219; 220; 221; 222; 223;
    224; 225; 226; 227; 228; 229; 230; 231; 232; 233; 234; 235; 236; 237; 238; 239;
    240; 241; 242; 243; 244; 245; 246; 247; 248; 249; 250; 251; 252; 253; 254; 255 ].

(** A [uint32_t] read from, and written to, four bytes. *)
Definition word4 (a b c d : Z) : Z := a + 256 * (b + 256 * (c + 256 * d)).
Definition bytes4 (w : Z) : list Z :=
  [w mod 256; w / 256 mod 256; w / 65536 mod 256; w / 16777216 mod 256].
(** Arithmetic in [uint32_t]. *)
Definition u32_add (a b : Z) : Z := (a + b) mod 4294967296.
Definition u32_sub (a b : Z) : Z := (a - b) mod 4294967296.
Definition u32_not (a : Z) : Z := 4294967295 - a.

(** modp_ascii.cpp:150-158: one word. *)
Definition upper_word (eax : Z) : Z :=
  let ebx := u32_add (Z.land 2139062143 eax) 84215045 in
  let ebx := u32_add (Z.land 2139062143 ebx) 437918234 in
  let ebx := Z.land (Z.shiftr (Z.land ebx (u32_not eax)) 2) 538976288 in
  u32_sub eax ebx.

(** modp_ascii.cpp:140-169 [modp_toupper_copy]. *)
Fixpoint modp_toupper (s : list Z) : list Z :=
  match s with
  | a :: b :: c :: d :: s' => bytes4 (upper_word (word4 a b c d)) ++ modp_toupper s'
  | _ => map (fun c => nth (Z.to_nat c) to_upper_map 0) s
  end.
