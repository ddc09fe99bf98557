(** The WriteLocked and IsLocked methods, which the three file protocols repeat
    word for word with their own offset:
    delta/protocol.go:199-248, index/protocol.go:163-211, recdb/protocol.go:298-347. *)
From Verif Require Import Base GoIO.

Definition write_locked_at (lockedOffset : Z) (locked : bool) : io file unit :=
  do pos <- fseek 0 SeekCurrent;
  run fseek lockedOffset SeekStart;
  run write_all fwrite [if locked then 1 else 0];
  run fseek pos SeekStart;
  ioret tt.

(** [_, err = file.Read(bytes)] into a one-byte buffer holding 0. *)
Definition read_one : io file Z := fun f =>
  let '(f', (bs, e)) := fread 1%nat f in
  (f', match e with None => Ret (default 0 (head bs)) | Some e => Err e end).

Definition is_locked_at (lockedOffset : Z) : io file bool :=
  do pos <- fseek 0 SeekCurrent;
  run fseek lockedOffset SeekStart;
  do b <- read_one;
  run fseek pos SeekStart;
  ioret (negb (b =? 0)).
