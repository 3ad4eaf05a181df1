(** What the user sees of a run: the status, the files and the problems reported. *)
From Verif Require Import Base State.

(** The problems that do not stop the assembler: a local label used before its definition
    (256), an unknown label (262), too deep an expansion (297); 0 is no problem. *)
Definition serious (e : err) : Prop := ~ In (e_code e) [0; 256; 262; 297].

(** The name of the output file as the export messages give it. *)
Definition from_exporter (e : err) : Prop := e_file e = zs "exporter".
