(** Specification of the second pass. *)
From Verif Require Import Base State ParserModel PassTwoSpec EvalSpec.

(** Byte [i] of the output is part of the placeholder of a queued operand. *)
Definition reserved (q : list pexpr) (i : nat) : Prop :=
  exists e, In e q /\ x_pos e <= Z.of_nat i < x_pos e + Z.of_nat (slot (x_type e)).
(** The output after the second pass has run over the queue [q]. *)
Definition filled (q : list pexpr) (m m' : list Z) : Prop :=
  length m' = length m /\ forall i, ~ reserved q i -> nth i m' 0 = nth i m 0.
(** Every placeholder lies in the output. *)
Definition slots_in (q : list pexpr) (m : list Z) : Prop :=
  Forall (fun e => 0 <= x_pos e /\ x_pos e + Z.of_nat (slot (x_type e)) <= zlen m) q.
(** Nothing queued contains '#', nor the name of a source file. *)
Definition qclean (e : pexpr) : Prop := clean (x_expr e) /\ clean (x_file e).
Definition oqclean (o : poutput) : Prop := clean (o_expr o) /\ clean (o_file o).

(** No define, macro or source file name has a '#'. *)
Record minv (s : st) : Prop := mkminv {
  mv_file : clean (s_file s);
  mv_defs : tok (s_defines s);
  mv_args : atok (s_args s) }.
(** The value of a queued operand with the labels of [s], at the address of the operand. *)
Definition has_value (R : fns) (s : st) (e : pexpr) : Prop :=
  exists s1 v s2, s_labels s1 = s_labels s /\ s_pc s1 = x_pc e /\ s_curr_reus s1 = x_reus e + 1 /\ s_reus s1 = s_reus s /\
    parse_num R (x_expr e) s1 = Ok (Some v) s2.
