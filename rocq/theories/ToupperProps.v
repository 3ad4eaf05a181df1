(** C45: upper-casing of names. *)
From Verif Require Import Base BaseProofs State UtilsModel ToupperModel ToupperProofs.

(** What upper-casing one character means. *)
Definition upper_of (c d : Z) : Prop :=
  (97 <= c <= 122 -> d = c - 32) /\ (~ 97 <= c <= 122 -> d = c).

Lemma upper_of_toupper c : upper_of c (toupper c).
Proof. unfold upper_of, toupper, islower. destruct ((97 <=? c) && (c <=? 122)) eqn:E; lia. Qed.

Lemma modp_toupper_spec s : bytes s -> Forall2 upper_of s (modp_toupper s) /\ modp_toupper s = strup s.
Proof.
  intros H. rewrite (modp_toupper_ok (length s) s (le_n _) H). split; [|reflexivity].
  clear H. induction s; simpl; constructor; auto using upper_of_toupper.
Qed.

(** Four characters at a time gives, for every byte string of every length, each letter
    a-z in upper case and every other byte unchanged; so it is the [strup] used everywhere
    else in the model. *)
Theorem c45_upper_case : forall s, bytes s -> Forall2 upper_of s (modp_toupper s) /\ modp_toupper s = strup s.
Proof. exact modp_toupper_spec. Qed.
Print Assumptions c45_upper_case.

Example c45_example : modp_toupper (zs "ld a,{`z@[" ++ [200; 255; 9]) = zs "LD A,{`Z@[" ++ [200; 255; 9].
Proof. vm_compute. reflexivity. Qed.
Example c45_example_bytes : bytes (zs "ld a,{`z@[" ++ [200; 255; 9]).
Proof. repeat constructor; unfold is_byte; vm_compute; intuition discriminate. Qed.
