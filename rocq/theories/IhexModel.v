(** Model of [intelhex] (export.cpp:664-693), the Intel HEX writer used for
    .hex and .8xk output.  Output is the list of bytes written to the file. *)
From Verif Require Import Base.

(** export.cpp:680-685: the innermost loop.  At most [n] (32 = 64/2) bytes are taken;
    returns the text put in [outbuf], the number of bytes, the running
    [unsigned char chksum] and the rest of the buffer. *)
Fixpoint ih_bytes (n : nat) (chksum : Z) (buf : list Z) : list Z * Z * Z * list Z :=
  match n, buf with
  | S n', temp :: buf' =>
      let '(txt, ci, c, rest) := ih_bytes n' (u8 (chksum + temp)) buf' in
      (hexdig (Z.shiftr temp 4) :: hexdig (Z.land temp 15) :: txt, ci + 1, c, rest)
  | _, _ => ([], 0, chksum, buf)
  end.

Definition crlf : list Z := [13; 10].

(** export.cpp:678-690: one iteration of the record loop. *)
Definition ih_record (address : Z) (buf : list Z) : list Z * list Z :=
  let chk0 := u8 (Z.shiftr address 8 + Z.land address 255) in
  let '(txt, ci, chksum, rest) := ih_bytes 32 chk0 buf in
  (zs ":" ++ hexw 2 ci ++ hexw 4 address ++ zs "00" ++ txt ++
   hexw 2 (u8 (Z.lnot (chksum + ci) + 1)) ++ crlf, rest).

(** export.cpp:678-690: at most [n] (512) records while data remains. *)
Fixpoint ih_records (n : nat) (address : Z) (buf : list Z) : list Z * list Z :=
  match n, buf with
  | S n', _ :: _ =>
      let '(t, rest) := ih_record address buf in
      let '(ts, rest') := ih_records n' (address + 32) rest in
      (t ++ ts, rest')
  | _, _ => ([], buf)
  end.

(** export.cpp:674-691: the page loop.  The fuel (buffer length) bounds the number of
    pages; every page consumes at least one byte. *)
Fixpoint ih_pages (fuel : nat) (page base : Z) (buf : list Z) : list Z :=
  match buf with
  | [] => []
  | _ =>
    match fuel with
    | O => []
    | S f =>
      let '(t, rest) := ih_records 512 base buf in
      zs ":02000002" ++ hexw 4 page ++ hexw 2 (u8 (Z.lnot (4 + page) + 1)) ++ crlf ++
      t ++ ih_pages f (page + 1) base rest
    end
  end.

(** export.cpp:664-693; export.cpp:99 gives the default [base_address] 0x4000.
    export.cpp:210-212 [makehex] is this function. *)
Definition intelhex_at (base : Z) (buf : list Z) : list Z :=
  ih_pages (length buf) 0 base buf ++ zs ":00000001FF".
Definition intelhex (buf : list Z) : list Z := intelhex_at 16384 buf.
