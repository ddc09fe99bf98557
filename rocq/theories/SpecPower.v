(** What a power failure leaves on disk of a file into which nothing has been forced
    (the code never calls Sync). *)
From Verif Require Import Base GoIO.

(** The file had the content [d] and the bytes of [log] were written, in order.  The
    disk takes blocks of [B] bytes as wholes and independently: block [n] of the file is
    as it was after [blocks n] of the writes, and the length as it was after [len] of
    them.  Bytes that are inside the length but not in their block are zero. *)
Definition power_image (B : nat) (blocks : nat -> nat) (len : nat) (d : list byte) (log : list wop)
  : list byte :=
  map (fun i => default 0 (replay (take (blocks (i / B)%nat) log) d !! i))
    (seq 0 (length (replay (take len log) d))).
