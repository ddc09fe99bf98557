(** Several calls of Open on one index file at the same time.  As with the delta file,
    the lock flag is looked at and set in separate steps (storage.go:45-82 and
    storagefactory.go:43-78 of internal/infra/index).
    Simplification: what precedes the writing of the lock is one step, the lock and the
    reading of the pairs is another.  Any order of these steps is taken. *)
From Verif Require Import Base GoIO Index SpecLock DeltaRace.

(** What Open has in hand before it sets the lock: the rest of the buffer of the
    bufio.Reader with its pending error, and the header. *)
Notation iprogress := (list byte * option err * iheader)%type.

(** storagefactory.go:53-61,67-76 and storage.go:45-63: Open up to the lock, or the
    creation of the file ([None]). *)
Definition i_open_check (bsz rsz : nat) (c : bool) : io file (option iprogress) :=
  do size <- closing c (fseek 0 SeekEnd);
  if 0 <? size then
    closing c (iomaperr (fun _ => EMsg "failed to load index") (
      run fseek 0 SeekStart;
      fun f =>
        let '(b, o) :=
          (run iomaperr (fun _ => EMsg "failed to read index prefix") (i_read_prefix (br_read fread rsz));
           do hdr <- iomaperr (fun _ => EMsg "failed to read index header") (i_read_header (br_read fread rsz));
           if negb (ih_locked hdr =? 0) then iofail (EMsg "broken index file (after unexpected termination)")
           else fun b => (b, Ret (Some (br_buf b, br_err b, hdr)))) (new_breader f) in
        (br_r b, o)))
  else run closing c (iomaperr (fun _ => EMsg "failed to load index") (i_create bsz)); ioret None.

(** storage.go:64-82: the lock and the pairs. *)
Definition i_open_lock (rsz : nat) (c : bool) (x : option iprogress) : io file istore :=
  do m <-
    match x with
    | Some (buf, e, hdr) =>
      closing c (iomaperr (fun _ => EMsg "failed to load index") (fun f =>
        let '(b, o) :=
          (run iomaperr (fun _ => EMsg "failed to write file lock") (under_reader (i_write_locked true));
           i_load_entries (br_read fread rsz) (Z.to_nat (ih_count hdr)) ∅) (BReader f buf e) in
        (br_r b, o)))
    | None => ioret ∅
    end;
  fun f => (f, Ret (IStore m f c)).

(** The index with the content that its file has now. *)
Definition isees (d : list byte) (s : istore) : istore := IStore (is_map s) (seen d (is_file s)) (is_closer s).

(** How far a call of Open has come. *)
Inductive iopener :=
| IWaiting (f : file)
| IChecked (f : file) (x : option iprogress)
| IOpened (s : istore)
| IRefused.

Definition iafter_check (r : file * outcome (option iprogress)) : iopener :=
  match r with (f, Ret x) => IChecked f x | _ => IRefused end.
Definition iafter_lock (r : file * outcome istore) : iopener :=
  match r with (_, Ret s) => IOpened s | _ => IRefused end.

(** [irace bsz rsz c d0 d os]: some calls of Open, on a file containing [d0], have come
    as far as [os] says, and the file contains [d]. *)
Inductive irace (bsz rsz : nat) (c : bool) (d0 : list byte) : list byte -> list iopener -> Prop :=
| irace_start fs : Forall (fun f => usable f /\ f_data f = d0) fs -> irace bsz rsz c d0 d0 (map IWaiting fs)
| irace_check d os i f : irace bsz rsz c d0 d os -> os !! i = Some (IWaiting f) ->
    irace bsz rsz c d0 (f_data (fst (i_open_check bsz rsz c (seen d f))))
      (<[i := iafter_check (i_open_check bsz rsz c (seen d f))]> os)
| irace_lock d os i f x : irace bsz rsz c d0 d os -> os !! i = Some (IChecked f x) ->
    irace bsz rsz c d0 (f_data (fst (i_open_lock rsz c x (seen d f))))
      (<[i := iafter_lock (i_open_lock rsz c x (seen d f))]> os).
