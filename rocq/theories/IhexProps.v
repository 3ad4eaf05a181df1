(** Intel HEX output: properties C25 and C26. *)
From Verif Require Import BaseProofs IhexModel IhexSpec IhexProofs.

(** C25: a reader that does not look at checksums recovers exactly the assembled bytes,
    each at its page and address, for every buffer the 16-bit page number can describe
    (1 GiB; the assembler's own output buffer is 8,000,000 bytes). *)
Theorem c25_ihex_lossless : forall buf,
  bytes buf -> zlen buf <= 65536 * 16384 ->
  decode_hex false (intelhex buf) = Some (image buf).
Proof. intros buf Hb Hl. exact (decode_intelhex false buf Hb ltac:(lia)). Qed.

(** C26: up to 256 pages (4 MiB), a reader that rejects any record whose bytes do not sum
    to 0 modulo 256 accepts the whole file, and reads the same bytes. *)
Theorem c26_ihex_checksums_partial : forall buf,
  bytes buf -> zlen buf <= 256 * 16384 ->
  decode_hex true (intelhex buf) = Some (image buf).
Proof. exact ihex_checked_ok. Qed.

(** C26 is false in general: beyond 256 pages the page record's checksum ignores the high
    byte of the page number (export.cpp:676), and a checking reader rejects every such
    file.  The 8,000,000-byte output buffer makes such programs possible. *)
Theorem c26_ihex_checksums_refuted : forall buf,
  bytes buf -> 256 * 16384 < zlen buf <= 65536 * 16384 ->
  decode_hex true (intelhex buf) = None.
Proof. exact ihex_checked_bad. Qed.

(** Non-vacuity: a 40-byte program spans two data records. *)
Example ihex_example_text :
  intelhex (repeat 201 33) =
  zs ":020000020000FC" ++ crlf ++
  zs ":20400000" ++ concat (repeat (zs "C9") 32) ++ zs "80" ++ crlf ++
  zs ":01402000C9D6" ++ crlf ++ zs ":00000001FF".
Proof. vm_compute. reflexivity. Qed.
Example ihex_example_read :
  decode_hex true (intelhex [1; 254; 3]) = Some [(0, 16384, 1); (0, 16385, 254); (0, 16386, 3)].
Proof. vm_compute. reflexivity. Qed.
(** The reader rejects a damaged checksum, so acceptance is informative. *)
Example ihex_example_reject :
  decode_hex true (zs ":0140000001BF" ++ crlf ++ zs ":00000001FF") = None /\
  decode_hex true (zs ":0140000001BE" ++ crlf ++ zs ":00000001FF") = Some [(0, 16384, 1)].
Proof. vm_compute. split; reflexivity. Qed.
(** Hypotheses of the refutation are met by a program of 4 MiB + 1 zero bytes, within the
    8,000,000 bytes of the assembler's buffer. *)
Example ihex_example_large :
  bytes (repeat 0 (Z.to_nat 4194305)) /\
  256 * 16384 < zlen (repeat 0 (Z.to_nat 4194305)) <= 8000000.
Proof.
  split; [apply Forall_forall; intros x Hx; apply repeat_spec in Hx; subst; unfold is_byte; lia|].
  unfold zlen. rewrite repeat_length. lia.
Qed.

Print Assumptions c25_ihex_lossless.
Print Assumptions c26_ihex_checksums_partial.
Print Assumptions c26_ihex_checksums_refuted.
