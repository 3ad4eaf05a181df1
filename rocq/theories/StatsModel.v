(** What -C and -S print when the run is over. *)
From Verif Require Import Base State.

(** printf of unsigned numbers: s_codesize and the others are kept below 2^32. *)
Definition nl : text := [10].
(** main.cpp:193-196 (-C). *)
Definition counter_report (s : st) : text :=
  zs "Size: " ++ dec (s_codesize s) ++ nl ++
  zs "Min. execution time: " ++ dec (s_mintime s) ++ nl ++
  zs "Max. execution time: " ++ dec (s_maxtime s) ++ nl.
(** main.cpp:198-201 (-S); storage.cpp:698-709: the numbers of entries of the two tables. *)
Definition stats_report (s : st) : text :=
  zs "Number of labels: " ++ dec (zlen (s_labels s)) ++ nl ++
  zs "Number of defines: " ++ dec (zlen (s_defines s)) ++ nl ++
  zs "Code size: " ++ dec (s_codesize s) ++ nl ++
  zs "Data size: " ++ dec (s_datasize s) ++ nl ++
  zs "Total size: " ++ dec (u32 (s_codesize s + s_datasize s)) ++ nl.
