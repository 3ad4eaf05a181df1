(** Output file formats, written from the descriptions of the formats. *)
From Verif Require Import Base State StorageSpec.

Definition total (l : list Z) : Z := fold_right Z.add 0 l.
(** A 16-bit little-endian number at offset [i]. *)
Definition rd16 (l : list Z) (i : nat) : Z := nth i l 0 + 256 * nth (S i) l 0.

(** A calculator variable file: 53 bytes of signature and comment, the length of the data
    section, the data section, and the sum of the section's bytes modulo 65536. *)
Record var_file := mkvf { vf_length : Z; vf_section : list Z; vf_checksum : Z }.
Definition split_file (file : list Z) : option var_file :=
  if (length file <? 57)%nat then None
  else let n := (length file - 57)%nat in
       Some (mkvf (rd16 file 53) (firstn n (skipn 55 file)) (rd16 file (55 + n))).
Definition var_file_ok (file : list Z) : Prop :=
  exists v, split_file file = Some v /\
    vf_length v = Z.of_nat (length (vf_section v)) mod 65536 /\
    vf_checksum v = total (vf_section v) mod 65536.

(** The data section holds one variable: length h of the description; the description, made
    of the size of the variable, its type, its name and, if there is room, two more bytes;
    the size again; and the variable.  The name is 8 bytes padded with zeros, or preceded by
    its length ([sized]).  A program variable begins with the size of the rest. *)
Record variable := mkvar { v_type : Z; v_name : list Z; v_data : list Z }.
Fixpoint to_zero (l : list Z) : list Z :=
  match l with [] => [] | c :: l' => if c =? 0 then [] else c :: to_zero l' end.
Definition read_section (sized : bool) (s : list Z) : option variable :=
  let h := Z.to_nat (rd16 s 0) in
  let n := rd16 s 2 in
  let name := if sized then firstn (Z.to_nat (nth 5 s 0)) (skipn 6 s) else to_zero (firstn 8 (skipn 5 s)) in
  let v := skipn (4 + h) s in
  if (rd16 s (2 + h) =? n) && (Z.of_nat (length v) =? n) && (rd16 v 0 =? n - 2)
  then Some (mkvar (nth 4 s 0) name (skipn 2 v)) else None.
Definition read_var (sized : bool) (file : list Z) : option variable :=
  match split_file file with
  | Some v =>
    if (vf_length v =? Z.of_nat (length (vf_section v))) && (vf_checksum v =? total (vf_section v) mod 65536)
    then read_section sized (vf_section v) else None
  | None => None
  end.

(** An application: fields, each an identifying byte whose low half is the length of its
    content, after a first field (80 0F) for the length of all that follows it. *)
Record field := mkfield { fl_id : Z; fl_content : list Z }.
Definition field_ok (f : field) : Prop := 0 <= fl_id f < 256 /\ Z.of_nat (length (fl_content f)) = fl_id f mod 16.
Definition field_bytes (f : field) : list Z := 128 :: fl_id f :: fl_content f.
Definition fields_bytes (l : list field) : list Z := flat_map field_bytes l.
(** A big-endian 32-bit number. *)
Definition be32 (z : Z) : list Z := [z / 16777216 mod 256; z / 65536 mod 256; z / 256 mod 256; z mod 256].
Definition le32 (z : Z) : list Z := rev (be32 z).
Definition ceil_div (a b : Z) : Z := (a + b - 1) / b.

(** The formats an output name can ask for. *)
Inductive exporter := ExBinary | ExRom | ExHex | ExApp | ExVariable (which : nat).
Definition formats : list (text * exporter) :=
  [ (zs "bin", ExBinary); (zs "rom", ExRom); (zs "hex", ExHex); (zs "8xk", ExApp);
    (zs "73p", ExVariable 0); (zs "82p", ExVariable 1); (zs "83p", ExVariable 2); (zs "8xp", ExVariable 3);
    (zs "8xv", ExVariable 4); (zs "85p", ExVariable 5); (zs "86p", ExVariable 6); (zs "85s", ExVariable 7);
    (zs "86s", ExVariable 8) ].
Fixpoint exporter_of (ext : text) (l : list (text * exporter)) : option exporter :=
  match l with
  | [] => None
  | (e, x) :: l' => if same_letters ext e then Some x else exporter_of ext l'
  end.

(** What an application's header must contain, and the application with its pages and length
    fields filled in; [code] is what follows the header. *)
Definition is_type (f : field) : bool := fl_id f =? 18.
Definition is_pages (f : field) : bool := fl_id f =? 129.
Definition is_name (f : field) : bool := fl_id f / 16 =? 4.
Fixpoint update_first (p : field -> bool) (v : list Z) (l : list field) : list field :=
  match l with
  | [] => []
  | f :: l' => if p f then mkfield (fl_id f) v :: l' else f :: update_first p v l'
  end.
Definition app_bytes (len : list Z) (fs : list field) (code : list Z) : list Z :=
  [128; 15] ++ len ++ fields_bytes fs ++ code.
(** The page the last byte of the program lies in has no room for the 96 bytes of signature. *)
Definition no_room (size : Z) : bool := (16384 <? size) && (16288 <? (size - 1) mod 16384 + 1).
Inductive refusal := NoRoom | NoLength | BadType | NoPages | NoName.
Definition app_spec (fs : list field) (code : list Z) (size : Z) : refusal + (list Z * Z * list Z) :=
  if no_room size then inl NoRoom
  else match find is_type fs with
  | None => inl BadType
  | Some t =>
    if eqbl (fl_content t) [1; 4] then
      match find is_pages fs with
      | None => inl NoPages
      | Some _ =>
        match find is_name fs with
        | None => inl NoName
        | Some n =>
          let pages := ceil_div size 16384 in
          inr (app_bytes (be32 (size - 6)) (update_first is_pages [pages mod 256] fs) code, pages, firstn 8 (fl_content n))
        end
      end
    else inl BadType
  end.
