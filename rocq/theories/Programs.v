(** Small source programs for witnesses and examples. *)
From Verif Require Import Base State MainModel Validate.

(** Source text from its lines. *)
Definition prog (l : list string) : list Z := concat (map (fun s => zs s ++ [10]) l).
(** A state with the built-in instruction table and nothing defined. *)
Definition blank : st := init_state false (zs "a.asm") [] [].
