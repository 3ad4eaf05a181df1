(** An independent reader of Intel HEX text (types 00, 01 and 02), written from the
    format's description and not from the writer in export.cpp. *)
From Verif Require Import Base.

Definition hexval (c : Z) : option Z :=
  if (48 <=? c) && (c <=? 57) then Some (c - 48)
  else if (65 <=? c) && (c <=? 70) then Some (c - 55)
  else if (97 <=? c) && (c <=? 102) then Some (c - 87)
  else None.

(** The bytes spelled by the longest run of hex-digit pairs, and what follows. *)
Fixpoint hexpairs (l : list Z) : list Z * list Z :=
  match l with
  | a :: ((b :: l') as t) =>
      match hexval a, hexval b with
      | Some x, Some y => let '(bs, r) := hexpairs l' in (16 * x + y :: bs, r)
      | _, _ => ([], l)
      end
  | _ => ([], l)
  end.

Definition sum (l : list Z) : Z := fold_right Z.add 0 l.

(** A record: data length, address, type, data; the checksum makes all bytes sum to 0. *)
Record hexrec := { hr_addr : Z; hr_type : Z; hr_data : list Z }.

Definition record_of (check : bool) (bs : list Z) : option hexrec :=
  match bs with
  | len :: ah :: al :: ty :: body =>
      let data := removelast body in
      if (Z.of_nat (length body) =? len + 1) &&
         (negb check || (sum bs mod 256 =? 0))
      then Some {| hr_addr := 256 * ah + al; hr_type := ty; hr_data := data |}
      else None
  | _ => None
  end.

(** One loaded byte: (segment, address, value). *)
Definition cell := (Z * Z * Z)%type.

Fixpoint cells (seg addr : Z) (data : list Z) : list cell :=
  match data with
  | [] => []
  | b :: d => (seg, addr, b) :: cells seg (addr + 1) d
  end.

(** Reads records up to the end-of-file record, which must end the text.  [check] says
    whether checksums are verified.  [None] is a format error. *)
Fixpoint read_hex (fuel : nat) (check : bool) (seg : Z) (l : list Z) : option (list cell) :=
  match fuel with
  | O => None
  | S f =>
    match l with
    | c :: l' =>
      if c =? 58 then
        let '(bs, rest) := hexpairs l' in
        match record_of check bs with
        | None => None
        | Some r =>
          if hr_type r =? 1 then match rest with [] => Some [] | _ => None end
          else
            match rest with
            | 13 :: 10 :: rest' =>
              if hr_type r =? 0 then
                match read_hex f check seg rest' with
                | Some cs => Some (cells seg (hr_addr r) (hr_data r) ++ cs)
                | None => None
                end
              else if hr_type r =? 2 then
                match hr_data r with
                | [h; lo] => read_hex f check (256 * h + lo) rest'
                | _ => None
                end
              else None
            | _ => None
            end
        end
      else None
    | [] => None
    end
  end.

Definition decode_hex (check : bool) (l : list Z) : option (list cell) :=
  read_hex (S (length l)) check 0 l.

(** What a TI application image must load: byte [i] of the program lies in flash page
    [i / 16384] at address [0x4000 + i mod 16384]. *)
Fixpoint image_from (i : Z) (buf : list Z) : list cell :=
  match buf with
  | [] => []
  | b :: r => (i / 16384, 16384 + i mod 16384, b) :: image_from (i + 1) r
  end.
Definition image (buf : list Z) : list cell := image_from 0 buf.
