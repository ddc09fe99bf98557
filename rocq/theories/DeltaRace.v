(** Several calls of Open on one delta file at the same time.  Open looks at the lock
    flag first and sets it last (storagefactory.go:62-136 of internal/infra/delta), and
    nothing keeps another goroutine or process from doing the same in between.
    Simplification: the part of Open before the lock is one step, and so is the
    writing of the lock.  Any order of these steps is taken. *)
From Verif Require Import Base GoIO Delta SpecLock.

(** The file handle with the content that the file has now. *)
Definition seen (d : list byte) (f : file) : file :=
  File (f_kind f) d (f_pos f) (f_closed f) (f_env f) (f_log f).

(** storagefactory.go:62-127: Open up to the lock. *)
Definition d_open_check : io file (gmap Z (list item_delta) * Z) :=
  do size <- fseek 0 SeekEnd;
  if size =? 0 then
    run d_write_prefix fwrite;
    run d_write_header fwrite (DHeader delta_version 0 0);
    ioret (∅, 0)
  else
    run fseek 0 SeekStart;
    d_load fread.

(** storagefactory.go:129-136: the lock. *)
Definition d_open_lock (x : gmap Z (list item_delta) * Z) : io file dstore :=
  run iomaperr (fun _ => EMsg "failed to lock the file") (d_write_locked true);
  fun f => (f, Ret (DStore (fst x) ∅ (snd x) 0 f)).

(** How far a call of Open has come. *)
Inductive opener :=
| Waiting (f : file)
| Checked (f : file) (x : gmap Z (list item_delta) * Z)
| Opened (s : dstore)
| Refused.

Definition after_check (r : file * outcome (gmap Z (list item_delta) * Z)) : opener :=
  match r with (f, Ret x) => Checked f x | _ => Refused end.
Definition after_lock (r : file * outcome dstore) : opener :=
  match r with (_, Ret s) => Opened s | _ => Refused end.

(** [race d0 d os]: some calls of Open, on a file containing [d0], have come as far as
    [os] says, and the file contains [d]. *)
Inductive race (d0 : list byte) : list byte -> list opener -> Prop :=
| race_start fs : Forall (fun f => usable f /\ f_data f = d0) fs -> race d0 d0 (map Waiting fs)
| race_check d os i f : race d0 d os -> os !! i = Some (Waiting f) ->
    race d0 (f_data (fst (d_open_check (seen d f)))) (<[i := after_check (d_open_check (seen d f))]> os)
| race_lock d os i f x : race d0 d os -> os !! i = Some (Checked f x) ->
    race d0 (f_data (fst (d_open_lock x (seen d f)))) (<[i := after_lock (d_open_lock x (seen d f))]> os).
