(** What a process that dies during an operation leaves on disk. *)
From Verif Require Import Base GoIO.

(** The bytes written by an operation that took the file [f] to [f'], in order, are the
    part of the log of [f'] that is not in the log of [f].  The process died after
    [j] of them. *)
Definition written_by (f f' : file) : list wop := drop (length (f_log f)) (f_log f').
Definition crash_image (f f' : file) (j : nat) : list byte :=
  replay (take j (written_by f f')) (f_data f).
