(** Common vocabulary of the model: bytes, characters, C integers.
    Text and binary data are both lists of byte values (0..255) held in [Z]. *)
From Coq Require Export String Ascii ZArith List Bool.
Export ListNotations.
Global Open Scope Z_scope.

(** Numeric value of a character literal, e.g. [ch "a"] = 97. *)
Definition ch (c : ascii) : Z := Z.of_N (N_of_ascii c).
Arguments ch c%char_scope.

(** Bytes of a string literal. *)
Definition zs (s : string) : list Z := map (fun c => Z.of_N (N_of_ascii c)) (list_ascii_of_string s).
Arguments zs s%string_scope.

Definition is_byte (b : Z) : Prop := 0 <= b < 256.
Definition bytes (l : list Z) : Prop := Forall is_byte l.

(** C conversion to [unsigned char]. *)
Definition u8 (z : Z) : Z := z mod 256.

(** [char] is signed on the modelled platform: value of a [char] holding byte [b]. *)
Definition schar (b : Z) : Z := if b <? 128 then b else b - 256.

Definition INT_MIN : Z := -2147483648.
Definition INT_MAX : Z := 2147483647.
Definition UINT_MAX : Z := 4294967295.

Definition in_int (z : Z) : bool := (INT_MIN <=? z) && (z <=? INT_MAX).

(** Conversion to [int] of an out-of-range value, as GCC defines it. *)
Definition wrap32 (z : Z) : Z := (z + 2147483648) mod 4294967296 - 2147483648.
(** Conversion to [unsigned int]. *)
Definition u32 (z : Z) : Z := z mod 4294967296.

(** ctype.h in the C locale; bytes >= 128 are in no class. *)
Definition isdigit (c : Z) : bool := (48 <=? c) && (c <=? 57).
Definition isupper (c : Z) : bool := (65 <=? c) && (c <=? 90).
Definition islower (c : Z) : bool := (97 <=? c) && (c <=? 122).
Definition isalpha (c : Z) : bool := isupper c || islower c.
Definition isalnum (c : Z) : bool := isalpha c || isdigit c.
Definition isxdigit (c : Z) : bool :=
  isdigit c || ((65 <=? c) && (c <=? 70)) || ((97 <=? c) && (c <=? 102)).
Definition isspace (c : Z) : bool := (c =? 32) || ((9 <=? c) && (c <=? 13)).
Definition toupper (c : Z) : Z := if islower c then c - 32 else c.
Definition tolower (c : Z) : Z := if isupper c then c + 32 else c.

(** Character under a [char *] whose remaining text is [l]; NUL at the end. *)
Definition hd0 (l : list Z) : Z := match l with [] => 0 | c :: _ => c end.
(** [ptr[1]]. *)
Definition hd1 (l : list Z) : Z := match l with _ :: c :: _ => c | _ => 0 end.

Fixpoint eqbl (a b : list Z) : bool :=
  match a, b with
  | [], [] => true
  | x :: a', y :: b' => (x =? y) && eqbl a' b'
  | _, _ => false
  end.

(** strcasecmp(a,b) == 0. *)
Fixpoint eqbl_ci (a b : list Z) : bool :=
  match a, b with
  | [], [] => true
  | x :: a', y :: b' => (tolower x =? tolower y) && eqbl_ci a' b'
  | _, _ => false
  end.

(** strncmp(l, p, strlen(p)) == 0: [p] is a prefix of [l]. *)
Fixpoint prefixb (p l : list Z) : bool :=
  match p, l with
  | [], _ => true
  | x :: p', y :: l' => (x =? y) && prefixb p' l'
  | _, [] => false
  end.

Fixpoint prefixb_ci (p l : list Z) : bool :=
  match p, l with
  | [], _ => true
  | x :: p', y :: l' => (tolower x =? tolower y) && prefixb_ci p' l'
  | _, [] => false
  end.

(** strchr(set, c) != NULL for c != NUL. *)
Definition memb (c : Z) (set : list Z) : bool := existsb (Z.eqb c) set.

Definition zlen {A} (l : list A) : Z := Z.of_nat (length l).

(** One upper-case hexadecimal digit. *)
Definition hexdig (d : Z) : Z := if d <? 10 then 48 + d else 55 + d.

(** printf "%X" of a non-negative number: minimal digits. *)
Fixpoint hex_fuel (fuel : nat) (n : Z) (acc : list Z) : list Z :=
  match fuel with
  | O => acc
  | S f => let acc' := hexdig (n mod 16) :: acc in
           if n / 16 =? 0 then acc' else hex_fuel f (n / 16) acc'
  end.
Definition hexmin (n : Z) : list Z := hex_fuel (S (Z.to_nat (Z.log2 n))) n [].
(** printf "%0wX". *)
Definition hexw (w : nat) (n : Z) : list Z :=
  let s := hexmin n in repeat 48 (w - length s) ++ s.

(** printf "%d". *)
Fixpoint dec_fuel (fuel : nat) (n : Z) (acc : list Z) : list Z :=
  match fuel with
  | O => acc
  | S f => let acc' := (48 + n mod 10) :: acc in
           if n / 10 =? 0 then acc' else dec_fuel f (n / 10) acc'
  end.
Definition decmin (n : Z) : list Z := dec_fuel (S (Z.to_nat (Z.log2 n))) n [].
Definition dec (n : Z) : list Z := if n <? 0 then 45 :: decmin (- n) else decmin n.
