(** Specification of error sessions: a stack of problem lists. *)
From Verif Require Import Base State.

Record prob := mkprob { p_code : Z; p_warn : bool; p_line : Z; p_file : text }.

(** [frames]: the open sessions, innermost first, each with its problems, most recent first.
    [shown]: the problems printed, oldest first. *)
Record board := mkboard { frames : list (list prob); shown : list prob }.

(** The codes that do not stop the assembly: no error, an anonymous label not yet known, an
    unknown label, an expansion nested too deep. *)
Definition harmless (code : Z) : bool := memb code [0; 256; 262; 297].
Definition stops (p : prob) : bool := negb (harmless (p_code p)).

(** What a caller of the error module can do. *)
Inductive op :=
  | OStart                              (* open a session *)
  | ORecord (warn : bool) (code : Z)    (* record a problem at the current line *)
  | OReplay (fatal_only : bool)         (* replay the innermost session *)
  | OEnd                                (* end the innermost session *)
  | OMove (line : Z) (file : text).     (* the assembler moves to another line *)

(** Result of a step: go on, or leave the program with a status. *)
Inductive verdict := Go (b : board) | Stop (status : Z) (b : board).

(** One operation.  In quiet (code counter) mode nothing is shown.  Replaying the outermost
    session shows its problems, oldest first; replaying an inner one hands its problems to
    the enclosing session, where they count as the most recent.  Ending a session drops its
    problems; if the outermost one held a stopping problem the program ends with status 3.
    [None]: no session is open. *)
Definition board_step (quiet : bool) (line : Z) (file : text) (o : op) (b : board) : option verdict :=
  match o, frames b with
  | OMove _ _, _ => Some (Go b)
  | OStart, fs => Some (Go (mkboard ([] :: fs) (shown b)))
  | ORecord w c, f :: fs => Some (Go (mkboard ((mkprob c w line file :: f) :: fs) (shown b)))
  | OReplay fo, [f] =>
      Some (Go (mkboard [f]
        (if quiet then shown b
         else shown b ++ filter (fun p => if fo then stops p else true) (rev f))))
  | OReplay _, f :: g :: fs => Some (Go (mkboard ([] :: (f ++ g) :: fs) (shown b)))
  | OEnd, [f] => Some (if existsb stops f then Stop 3 (mkboard [] (shown b)) else Go (mkboard [] (shown b)))
  | OEnd, _ :: fs => Some (Go (mkboard fs (shown b)))
  | _, [] => None
  end.

(** A sequence of operations, with the current line and file. *)
Fixpoint board_run (quiet : bool) (line : Z) (file : text) (l : list op) (b : board) : option verdict :=
  match l with
  | [] => Some (Go b)
  | o :: l' =>
    match board_step quiet line file o b with
    | None => None
    | Some (Stop c b') => Some (Stop c b')
    | Some (Go b') =>
      match o with
      | OMove ln f => board_run quiet ln f l' b'
      | _ => board_run quiet line file l' b'
      end
    end
  end.

(** What the innermost session shows. *)
Definition board_count (b : board) : Z :=
  zlen (filter (fun p => negb (p_code p =? 0)) (hd [] (frames b))).
Definition board_stops (b : board) : bool := existsb stops (hd [] (frames b)).
Definition board_has (code : Z) (b : board) : bool :=
  existsb (fun p => p_code p =? code) (hd [] (frames b)).
