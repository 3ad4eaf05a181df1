(** Specification of what evaluating an expression may change. *)
From Verif Require Import Base State StorageModel StorageProofs.

(** A text without '#'. *)
Definition clean (t : text) : Prop := Forall (fun c => c <> 35) t.
Definition oclean (t : option text) : Prop := match t with Some t => clean t | None => True end.

(** The two names whose contents are refreshed when they are looked up. *)
Definition special (k : text) : Prop := k = zs "__LINE" \/ k = zs "__FILE".
(** The same entry up to the contents of those two. *)
Definition dlike (e e' : text * define) : Prop :=
  fst e' = fst e /\ d_name (snd e') = d_name (snd e) /\ d_line (snd e') = d_line (snd e) /\
  d_file (snd e') = d_file (snd e) /\ d_args (snd e') = d_args (snd e) /\
  (d_contents (snd e') = d_contents (snd e) \/ special (fst e)).
Definition tlike (t t' : list (text * define)) : Prop := Forall2 dlike t t'.
Definition alike (a a' : list (nat * list (text * define))) : Prop :=
  Forall2 (fun x y => fst y = fst x /\ tlike (snd x) (snd y)) a a'.
(** A table in key order whose contents have no '#'. *)
Definition tok (t : list (text * define)) : Prop :=
  table_ok t /\ Forall (fun e => oclean (d_contents (snd e))) t.
Definition atok (a : list (nat * list (text * define))) : Prop := Forall (fun x => tok (snd x)) a.

(** The fields an evaluation may change, blanked out. *)
Definition core (s : st) : st :=
  set_nextid 0 (set_errs [] (set_depth 0 (set_fwd false (set_exitc 0 (set_erroc false (set_randn 0
    (set_defines [] (set_args [] s)))))))).
(** New problems belong to the current session. *)
Definition noted_by (n : Z) (l : list err) : Prop := Forall (fun e => e_sess e = n /\ e_code e <> 0) l.
Record ev (s s' : st) : Prop := mkev {
  ev_core : core s' = core s;
  ev_defs : tlike (s_defines s) (s_defines s');
  ev_args : alike (s_args s) (s_args s');
  ev_errs : exists new, s_errs s' = new ++ s_errs s /\ noted_by (s_sess s) new;
  ev_exit : s_exitc s <= s_exitc s';
  ev_erroc : s_erroc s = true -> s_erroc s' = true }.
(** The states from which evaluation starts. *)
Record inv (s : st) : Prop := mkinv {
  iv_sess : 1 <= s_sess s;
  iv_file : clean (s_file s);
  iv_defs : tok (s_defines s);
  iv_args : atok (s_args s);
  iv_errs : Forall (fun e => e_sess e <= s_sess s) (s_errs s) }.
