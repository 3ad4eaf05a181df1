(** The project's own test programs (/repo/tests), assembled by the model: the bytes that the
    CHECK lines ask for, and the codes of the problems printed.  These are tests of the model,
    not theorems about it. *)
From Verif Require Import Base State MainModel.

Definition files_of (l : list (text * list Z)) (f : text) : option (list Z) :=
  match find (fun e => eqbl (fst e) f) l with Some e => Some (snd e) | None => None end.
Definition world_of (l : list (text * list Z)) : world :=
  mkworld (files_of l) (fun _ => 0) (zs "/w") (fun _ => repeat 0 16) true.
(** Exit status, contents of the output file, and codes of the problems printed. *)
Definition assemble (fuel : nat) (opts : list text) (src : list Z)
  : option (Z * option (list Z) * list Z) :=
  match main fuel (world_of [(zs "a.asm", src)]) (opts ++ [zs "a.asm"; zs "a.bin"]) with
  | Done c l s =>
    Some (c, files_of l (zs "a.bin"), match s with Some s => map e_code (s_printed s) | None => [] end)
  | _ => None
  end.

(** tests/dd.asm *)
Example test_dd :
  assemble 60 []
    [59; 32; 84; 101; 115; 116; 32; 108; 97; 114; 103; 101; 32; 51; 50; 45; 98; 105; 116; 32; 117;
     110; 115; 105; 103; 110; 101; 100; 32; 118; 97; 108; 117; 101; 115; 32; 100; 111; 110; 39; 116;
     32; 116; 114; 105; 103; 103; 101; 114; 32; 111; 118; 101; 114; 102; 108; 111; 119; 32; 101;
     114; 114; 111; 114; 46; 10; 35; 109; 97; 99; 114; 111; 32; 100; 100; 40; 118; 97; 108; 117;
     101; 41; 10; 9; 46; 100; 98; 32; 118; 97; 108; 117; 101; 32; 38; 32; 36; 102; 102; 10; 9; 46;
     100; 108; 32; 118; 97; 108; 117; 101; 32; 62; 62; 32; 56; 10; 35; 101; 110; 100; 109; 97; 99;
     114; 111; 10; 35; 100; 101; 102; 105; 110; 101; 32; 46; 100; 100; 32; 100; 100; 40; 10; 46;
     100; 100; 32; 49; 32; 60; 60; 32; 51; 49; 10; 46; 100; 100; 32; 45; 49; 32; 60; 60; 32; 51; 49;
     10; 46; 100; 100; 32; 36; 102; 102; 102; 102; 102; 102; 102; 102; 10; 59; 32; 67; 72; 69; 67;
     75; 58; 32; 48; 48; 48; 48; 48; 48; 56; 48; 32; 48; 48; 48; 48; 48; 48; 56; 48; 32; 70; 70; 70;
     70; 70; 70; 70; 70; 10]
  = Some (0, Some [0; 0; 0; 128; 0; 0; 0; 128; 255; 255; 255; 255], []).
Proof. vm_compute. reflexivity. Qed.

(** tests/empty-macro.asm *)
Example test_empty_macro :
  assemble 60 []
    [59; 32; 84; 101; 115; 116; 32; 117; 115; 105; 110; 103; 32; 101; 109; 112; 116; 121; 32; 109;
     97; 99; 114; 111; 115; 46; 10; 35; 109; 97; 99; 114; 111; 32; 116; 101; 115; 116; 10; 35; 101;
     110; 100; 109; 97; 99; 114; 111; 10; 59; 32; 67; 72; 69; 67; 75; 58; 10; 46; 101; 99; 104; 111;
     32; 116; 101; 115; 116; 10]
  = Some (0, Some [], []).
Proof. vm_compute. reflexivity. Qed.

(** tests/eval-neg.asm *)
Example test_eval_neg :
  assemble 60 []
    [59; 32; 84; 101; 115; 116; 32; 117; 115; 105; 110; 103; 32; 97; 110; 32; 101; 118; 97; 108; 39;
     100; 32; 110; 101; 103; 97; 116; 105; 118; 101; 32; 110; 117; 109; 98; 101; 114; 46; 10; 35;
     100; 101; 102; 105; 110; 101; 32; 116; 101; 115; 116; 32; 101; 118; 97; 108; 40; 45; 49; 41;
     10; 59; 32; 67; 72; 69; 67; 75; 58; 32; 70; 70; 10; 46; 100; 98; 32; 116; 101; 115; 116; 10]
  = Some (0, Some [255], []).
Proof. vm_compute. reflexivity. Qed.

(** tests/jr-ez80-offset.asm *)
Example test_jr_ez80_offset :
  assemble 60 [zs "-E"]
    [59; 32; 84; 101; 115; 116; 32; 106; 114; 32; 114; 101; 108; 97; 116; 105; 118; 101; 32; 111;
     102; 102; 115; 101; 116; 115; 32; 102; 111; 114; 32; 50; 52; 45; 98; 105; 116; 32; 101; 90; 56;
     48; 32; 99; 111; 100; 101; 32; 97; 115; 32; 102; 105; 120; 101; 100; 32; 98; 121; 32; 80; 82;
     32; 35; 50; 50; 46; 10; 59; 10; 59; 32; 82; 85; 78; 45; 65; 82; 71; 83; 58; 32; 45; 69; 10; 46;
     97; 115; 115; 117; 109; 101; 32; 65; 68; 76; 61; 49; 10; 10; 59; 32; 67; 72; 69; 67; 75; 58;
     32; 53; 66; 32; 49; 56; 32; 70; 68; 10; 32; 32; 32; 32; 106; 114; 46; 108; 105; 108; 32; 36;
     10; 10]
  = Some (0, Some [91; 24; 253], []).
Proof. vm_compute. reflexivity. Qed.

(** tests/macro-string-argument.asm *)
Example test_macro_string_argument :
  assemble 60 []
    [59; 32; 84; 101; 115; 116; 32; 109; 97; 99; 114; 111; 32; 115; 116; 114; 105; 110; 103; 32; 97;
     114; 103; 117; 109; 101; 110; 116; 32; 104; 97; 110; 100; 108; 105; 110; 103; 10; 59; 32; 67;
     72; 69; 67; 75; 58; 32; 55; 52; 54; 53; 55; 51; 55; 52; 32; 48; 48; 10; 35; 100; 101; 102; 105;
     110; 101; 32; 115; 116; 114; 105; 110; 103; 40; 118; 97; 108; 117; 101; 41; 32; 46; 100; 98;
     32; 118; 97; 108; 117; 101; 44; 48; 10; 115; 116; 114; 105; 110; 103; 40; 34; 116; 101; 115;
     116; 34; 41; 10]
  = Some (0, Some [116; 101; 115; 116; 0], []).
Proof. vm_compute. reflexivity. Qed.

(** tests/name-starts-with-reg.asm *)
Example test_name_starts_with_reg :
  assemble 60 []
    [59; 32; 84; 101; 115; 116; 32; 110; 97; 109; 101; 115; 32; 116; 104; 97; 116; 32; 115; 116; 97;
     114; 116; 32; 119; 105; 116; 104; 32; 105; 120; 32; 111; 114; 32; 105; 121; 10; 59; 32; 67; 72;
     69; 67; 75; 58; 32; 51; 50; 51; 52; 49; 50; 32; 51; 65; 55; 56; 53; 54; 10; 105; 120; 116; 101;
     115; 116; 32; 61; 32; 36; 49; 50; 51; 52; 10; 105; 121; 116; 101; 115; 116; 32; 61; 32; 36; 53;
     54; 55; 56; 10; 9; 108; 100; 9; 40; 105; 120; 116; 101; 115; 116; 41; 44; 32; 97; 10; 9; 108;
     100; 9; 97; 44; 32; 40; 105; 121; 116; 101; 115; 116; 41; 10]
  = Some (0, Some [50; 52; 18; 58; 120; 86], []).
Proof. vm_compute. reflexivity. Qed.

(** tests/neg-index-offset.asm *)
Example test_neg_index_offset :
  assemble 60 []
    [59; 32; 84; 101; 115; 116; 32; 110; 101; 103; 97; 116; 105; 118; 101; 32; 111; 102; 102; 115;
     101; 116; 115; 32; 111; 110; 32; 105; 110; 100; 101; 120; 32; 114; 101; 103; 105; 115; 116;
     101; 114; 115; 10; 59; 32; 67; 72; 69; 67; 75; 58; 32; 68; 68; 55; 55; 70; 70; 32; 70; 68; 55;
     69; 56; 48; 32; 68; 68; 55; 55; 52; 48; 32; 70; 68; 55; 69; 48; 48; 10; 9; 108; 100; 9; 40; 32;
     105; 120; 32; 45; 32; 49; 32; 41; 44; 32; 97; 10; 9; 108; 100; 9; 97; 44; 32; 40; 32; 105; 121;
     32; 45; 32; 49; 50; 56; 32; 41; 10; 9; 108; 100; 9; 40; 32; 105; 120; 32; 43; 32; 54; 52; 32;
     41; 32; 44; 32; 97; 10; 9; 108; 100; 9; 97; 44; 32; 40; 32; 105; 121; 32; 41; 10]
  = Some (0, Some [221; 119; 255; 253; 126; 128; 221; 119; 64; 253; 126; 0], []).
Proof. vm_compute. reflexivity. Qed.

(** tests/space-after-unary.asm *)
Example test_space_after_unary :
  assemble 60 []
    [59; 32; 84; 101; 115; 116; 32; 115; 112; 97; 99; 101; 115; 32; 98; 101; 116; 119; 101; 101;
     110; 32; 117; 110; 97; 114; 121; 32; 111; 112; 101; 114; 97; 116; 111; 114; 115; 32; 97; 110;
     100; 32; 116; 104; 101; 105; 114; 32; 118; 97; 108; 117; 101; 115; 10; 59; 32; 67; 72; 69; 67;
     75; 58; 32; 70; 70; 10; 9; 46; 100; 98; 9; 45; 32; 49; 10]
  = Some (0, Some [255], []).
Proof. vm_compute. reflexivity. Qed.

(** tests/undoc-ez80.asm *)
Example test_undoc_ez80 :
  assemble 60 [zs "-E"]
    [59; 32; 84; 101; 115; 116; 32; 101; 122; 56; 48; 32; 117; 110; 100; 111; 99; 32; 105; 110; 115;
     116; 115; 46; 10; 59; 32; 82; 85; 78; 45; 65; 82; 71; 83; 58; 32; 45; 69; 10; 59; 32; 67; 72;
     69; 67; 75; 58; 32; 69; 68; 51; 48; 49; 50; 32; 69; 68; 51; 48; 51; 52; 32; 32; 69; 68; 55; 48;
     32; 69; 68; 55; 48; 32; 32; 69; 68; 55; 48; 32; 69; 68; 55; 48; 10; 10; 9; 105; 110; 48; 9;
     102; 44; 32; 40; 49; 50; 104; 41; 10; 9; 105; 110; 48; 9; 40; 51; 52; 104; 41; 10; 10; 9; 105;
     110; 9; 102; 44; 32; 40; 98; 99; 41; 10; 9; 105; 110; 9; 40; 98; 99; 41; 10; 10; 9; 105; 110;
     9; 102; 44; 32; 40; 99; 41; 10; 9; 105; 110; 9; 40; 99; 41; 10]
  = Some (0, Some [237; 48; 18; 237; 48; 52; 237; 112; 237; 112; 237; 112; 237; 112], []).
Proof. vm_compute. reflexivity. Qed.

(** tests/bugs/empty-macro-name.asm *)
Example test_bug_empty_macro_name :
  assemble 60 [zs "-E"]
    [59; 32; 84; 101; 115; 116; 32; 102; 117; 122; 122; 101; 100; 32; 105; 110; 112; 117; 116; 32;
     45; 32; 101; 109; 112; 116; 121; 32; 109; 97; 99; 114; 111; 32; 110; 97; 109; 101; 10; 59; 32;
     67; 72; 69; 67; 75; 45; 69; 82; 82; 58; 32; 49; 50; 50; 10; 35; 109; 97; 99; 114; 111; 32; 62;
     10]
  = Some (3, None, [290]).
Proof. vm_compute. reflexivity. Qed.

(** tests/bugs/extra-long-addinstr.asm *)
Example test_bug_extra_long_addinstr :
  assemble 60 [zs "-E"]
    [59; 32; 84; 101; 115; 116; 32; 102; 111; 114; 32; 99; 111; 114; 114; 101; 99; 116; 32; 101;
     114; 114; 111; 114; 32; 104; 97; 110; 100; 108; 105; 110; 103; 32; 111; 110; 32; 108; 111; 110;
     103; 32; 40; 98; 117; 116; 32; 105; 110; 118; 97; 108; 105; 100; 41; 10; 59; 32; 46; 97; 100;
     100; 105; 110; 115; 116; 114; 32; 97; 114; 103; 117; 109; 101; 110; 116; 115; 10; 59; 32; 67;
     72; 69; 67; 75; 45; 69; 82; 82; 58; 32; 49; 50; 54; 10; 46; 97; 100; 100; 105; 110; 115; 116;
     114; 32; 48; 32; 48; 32; 48; 48; 48; 48; 48; 48; 48; 48; 48; 48; 48; 48; 48; 48; 48; 48; 48;
     48; 48; 48; 48; 48; 48; 48; 48; 48; 48; 48; 10]
  = Some (3, None, [294]).
Proof. vm_compute. reflexivity. Qed.

(** tests/bugs/non-existent-jmp.asm *)
Example test_bug_non_existent_jmp :
  assemble 60 []
    [59; 32; 84; 101; 115; 116; 32; 101; 114; 114; 111; 114; 32; 104; 97; 110; 100; 108; 105; 110;
     103; 32; 102; 111; 114; 32; 110; 111; 110; 45; 101; 120; 105; 115; 116; 101; 110; 116; 32; 108;
     97; 98; 101; 108; 10; 59; 32; 67; 72; 69; 67; 75; 45; 78; 70; 69; 82; 82; 58; 32; 49; 48; 54;
     10; 59; 32; 67; 72; 69; 67; 75; 58; 32; 67; 51; 32; 48; 69; 32; 48; 48; 32; 67; 51; 32; 48; 48;
     32; 48; 48; 32; 48; 48; 32; 48; 48; 32; 48; 48; 32; 48; 48; 32; 48; 48; 32; 48; 48; 32; 48; 48;
     32; 48; 48; 10; 115; 116; 97; 114; 116; 58; 10; 32; 32; 32; 32; 106; 112; 32; 101; 110; 100;
     10; 32; 32; 32; 32; 106; 112; 32; 100; 111; 101; 115; 110; 116; 101; 120; 105; 115; 116; 10;
     32; 32; 32; 32; 46; 102; 105; 108; 108; 32; 56; 10; 101; 110; 100; 58; 10]
  = Some (0, Some [195; 14; 0; 195; 0; 0; 0; 0; 0; 0; 0; 0; 0; 0], [262]).
Proof. vm_compute. reflexivity. Qed.

(** tests/bugs/pass_one_eol.asm *)
Example test_bug_pass_one_eol :
  assemble 60 [zs "-E"]
    [59; 32; 84; 101; 115; 116; 32; 102; 117; 122; 122; 101; 100; 32; 105; 110; 112; 117; 116; 10;
     59; 32; 67; 72; 69; 67; 75; 45; 69; 82; 82; 58; 32; 49; 48; 57; 10; 46; 101; 99; 104; 111; 32;
     62; 48; 10]
  = Some (3, None, [265]).
Proof. vm_compute. reflexivity. Qed.

(** tests/bugs/too-far-relative-jmp.asm *)
Example test_bug_too_far_relative_jmp :
  assemble 60 [zs "-E"]
    [59; 32; 84; 101; 115; 116; 32; 101; 114; 114; 111; 114; 32; 104; 97; 110; 100; 108; 105; 110;
     103; 32; 102; 111; 114; 32; 116; 111; 111; 32; 102; 97; 114; 32; 114; 101; 108; 97; 116; 105;
     118; 101; 32; 106; 117; 109; 112; 10; 59; 32; 67; 72; 69; 67; 75; 45; 69; 82; 82; 58; 32; 49;
     50; 48; 10; 115; 116; 97; 114; 116; 58; 10; 32; 32; 32; 32; 106; 114; 32; 101; 110; 100; 10;
     32; 32; 32; 32; 46; 102; 105; 108; 108; 32; 49; 50; 56; 10; 101; 110; 100; 58; 10]
  = Some (3, None, [288]).
Proof. vm_compute. reflexivity. Qed.
