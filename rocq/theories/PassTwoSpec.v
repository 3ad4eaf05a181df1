(** Specification of operand encoding and of the output buffer. *)
From Verif Require Import Base State.

(** Number written by little-endian bytes. *)
Fixpoint le_number (l : list Z) : Z :=
  match l with [] => 0 | b :: l' => b + 256 * le_number l' end.

(** A byte read as a signed displacement by the processor. *)
Definition signed_byte (b : Z) : Z := if b <? 128 then b else b - 256.

(** [bs] laid over [m] from position [i]; a gap is zero. *)
Definition splice (m : list Z) (i : nat) (bs : list Z) : list Z :=
  firstn i m ++ repeat 0 (i - length m) ++ bs ++ skipn (i + length bs) m.

(** The state after the bytes [bs] (at least one) were written to the output. *)
Definition emitted (bs : list Z) (s : st) : st :=
  set_pos (s_pos s + zlen bs) (set_mem (splice (s_mem s) (Z.to_nat (s_pos s)) bs) s).

(** There is room for [n] more bytes in the 8,000,000 byte output buffer. *)
Definition room (n : Z) (s : st) : Prop := 0 <= s_pos s /\ s_pos s + n <= 8000000.

(** The state after a problem was recorded. *)
Definition noted (warn : bool) (code : Z) (s : st) : st :=
  set_errs (mkerr code (s_sess s) warn (s_line s) (s_file s) :: s_errs s) s.

(** The state after a message of severity [n] was shown at once. *)
Definition alarmed (n : Z) (s : st) : st := set_exitc (Z.max n (s_exitc s)) s.

(** An int value. *)
Definition int32 (v : Z) : Prop := -2147483648 <= v <= 2147483647.

(** Bytes of an operand slot of a queued expression. *)
Definition slot (t : arg_type) : nat :=
  match t with ARG_NUM_16 => 2 | ARG_NUM_24 => 3 | _ => 1 end.

(** Byte [i] of the output buffer. *)
Definition byte_at (m : list Z) (i : nat) : Z := nth i m 0.
