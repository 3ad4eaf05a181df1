(** Reasoning about the model's state monad. *)
From Coq Require Import Lia.
From Verif Require Import Base BaseProofs State.

Lemma bind_ok {A B} (m : M A) (k : A -> M B) s a s' :
  m s = Ok a s' -> bind m k s = k a s'.
Proof. intros H. unfold bind. now rewrite H. Qed.

Lemma bind_exit {A B} (m : M A) (k : A -> M B) s c s' :
  m s = Exit c s' -> bind m k s = Exit c s'.
Proof. intros H. unfold bind. now rewrite H. Qed.

Lemma bind_undef {A B} (m : M A) (k : A -> M B) s w :
  m s = Undef w -> bind m k s = Undef w.
Proof. intros H. unfold bind. now rewrite H. Qed.

Lemma bind_nofuel {A B} (m : M A) (k : A -> M B) s :
  m s = NoFuel -> bind m k s = NoFuel.
Proof. intros H. unfold bind. now rewrite H. Qed.

Lemma bind_ret {A B} (a : A) (k : A -> M B) s : bind (ret a) k s = k a s.
Proof. reflexivity. Qed.
Lemma bind_get {A B} (f : st -> A) (k : A -> M B) s : bind (get f) k s = k (f s) s.
Proof. reflexivity. Qed.
Lemma bind_upd {B} (f : st -> st) (k : unit -> M B) s : bind (upd f) k s = k tt (f s).
Proof. reflexivity. Qed.
Lemma bind_assoc {A B D} (m : M A) (k : A -> M B) (h : B -> M D) s :
  bind (bind m k) h s = bind m (fun a => bind (k a) h) s.
Proof. unfold bind. destruct (m s); reflexivity. Qed.
Lemma bind_inv_ok {A B} (m : M A) (k : A -> M B) s b s' :
  bind m k s = Ok b s' -> exists a s1, m s = Ok a s1 /\ k a s1 = Ok b s'.
Proof. unfold bind. destruct (m s); try discriminate. eauto. Qed.

(** Run the leading primitive steps of a program. *)
Ltac mstep := first
  [ rewrite bind_ret | rewrite bind_get | rewrite bind_upd | rewrite bind_assoc ]; cbv beta; simpl.
Ltac msteps := repeat mstep.
