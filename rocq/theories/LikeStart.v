(** Model of how likeNamespace.Start opens the files of a namespace:
    internal/domain/likenamespace.go:95-170. *)
From Verif Require Import Base GoIO Lock Delta Index Similarity Naming Json Service.

(** The files on disk, by path. *)
Notation disk := (gmap (list byte) (list byte)).

(** How the operating system treats one file: whether os.OpenFile succeeds, and the
    outcomes of the reads, writes, truncations and the close that follow ([] = all
    complete). *)
Record osfile := OsFile { of_opens : bool; of_faults : list fault }.

(** Everything Start does not determine itself: the buffer sizes of the standard
    library, the map orders of the two Close calls, and the operating system. *)
Record senv := SEnv {
  se_bsz : nat; se_rsz : nat; se_csz : nat;
  se_dsh : new_order; se_ish : index_order;
  se_delta : osfile; se_index : osfile; se_recdb : osfile
}.

(** os.OpenFile(path, os.O_RDWR|os.O_CREATE, 0644) *)
Definition os_open (o : osfile) (path : list byte) : io disk file := fun d =>
  if of_opens o then
    let data := default [] (d !! path) in
    (<[path := data]> d, Ret (File KOs data 0 false (of_faults o) []))
  else (d, Err (EMsg "open")).

(** What was done to the open file is on disk. *)
Definition keep (path : list byte) (f : file) (d : disk) : disk := <[path := f_data f]> d.

(** errors.Is(err, NewCorruptedFileError()): whether err wraps (%w) such an error.
    (A CorruptedFileError has no fields, and Go does not say whether two pointers to
    such values are equal; we take them to be, which favours the code.) *)
Fixpoint is_corrupted_error (e : err) : bool :=
  match e with ECorrupted => true | EWrap _ e' => is_corrupted_error e' | _ => false end.

(** likenamespace.go:95-107 openMaybeRecoverDeltaStorage *)
Definition open_delta_storage (v : senv) (path : list byte) : io disk dstore :=
  do f <- iomaperr (EWrap "failed to open delta file") (os_open (se_delta v) path);
  fun d =>
    match d_open_maybe_recover (se_csz v) f with
    | (f', Ret s) => (keep path f' d, Ret s)
    | (f', Err e) => (keep path (fst (fclose f')) d, Err (EWrap "failed to open delta storage" e))
    | (f', Panic) => (keep path f' d, Panic)
    | (f', Hang) => (keep path f' d, Hang)
    end.

(** likenamespace.go:110-134 openMaybeResetIndexStorage.  The file is also the closer
    given to Open. *)
Definition open_index_storage (v : senv) (path : list byte) : io disk istore :=
  do f <- iomaperr (EWrap "failed to open delta file") (os_open (se_index v) path);
  fun d =>
    match i_open (se_bsz v) (se_rsz v) true f with
    | (f', Ret s) => (keep path f' d, Ret s)
    | (f', Err e) =>
      if negb (is_corrupted_error e)
      then (keep path (fst (fclose f')) d, Err (EWrap "failed to open delta storage" e))
      else
        match ftruncate 0 f' with
        | (f2, Ret _) =>
          match i_open (se_bsz v) (se_rsz v) true f2 with
          | (f3, Ret s) => (keep path f3 d, Ret s)
          | (f3, Err e) => (keep path (fst (fclose f3)) d, Err (EWrap "failed to open index file" e))
          | (f3, Panic) => (keep path f3 d, Panic)
          | (f3, Hang) => (keep path f3 d, Hang)
          end
        | (f2, Err e) => (keep path (fst (fclose f2)) d, Err (EWrap "failed to truncate" e))
        | (f2, Panic) => (keep path f2 d, Panic)
        | (f2, Hang) => (keep path f2 d, Hang)
        end
    | (f', Panic) => (keep path f' d, Panic)
    | (f', Hang) => (keep path f' d, Hang)
    end.

(** likenamespace.go:137-152 openMaybeRecoverLikeStorage.  [factory]: what
    likeStorageFactory.OpenMaybeRecover does to the file, [None] if the factory is nil:
    calling a method of a nil interface panics.  The repository has no
    implementation. *)
Definition open_like_storage (v : senv) (factory : option (io file unit)) (path : list byte)
  : io disk unit :=
  do f <- iomaperr (EWrap "failed to open recdb file") (os_open (se_recdb v) path);
  fun d =>
    match factory with
    | None => (keep path f d, Panic)
    | Some m =>
      match m f with
      | (f', Ret _) => (keep path f' d, Ret tt)
      | (f', Err e) => (keep path (fst (fclose f')) d, Err (EWrap "failed to open like storage" e))
      | (f', Panic) => (keep path f' d, Panic)
      | (f', Hang) => (keep path f' d, Hang)
      end
    end.

(** The Close calls of the failure paths; their errors are ignored. *)
Definition close_delta (v : senv) (path : list byte) (s : dstore) (d : disk) : disk :=
  keep path (ds_file (fst (d_close (se_bsz v) (se_dsh v) s))) d.
Definition close_index (v : senv) (path : list byte) (s : istore) (d : disk) : disk :=
  keep path (is_file (fst (i_close (se_bsz v) (se_ish v) s))) d.

(** likenamespace.go:155-170 Start, up to the worker (Worker.v): the storages it runs
    with. *)
Definition ns_start_with (v : senv) (factory : option (io file unit)) (x : lns)
  : io disk (dstore * istore) :=
  let path := ns_file_path (ln_base x) (ln_name x) in
  do ds <- open_delta_storage v (path DeltaFile);
  fun d =>
    match open_index_storage v (path IndexFile) d with
    | (d, Ret is) =>
      match open_like_storage v factory (path RecdbFile) d with
      | (d, Ret _) => (d, Ret (ds, is))
      | (d, Err e) => (close_index v (path IndexFile) is (close_delta v (path DeltaFile) ds d), Err e)
      | (d, Panic) => (d, Panic)
      | (d, Hang) => (d, Hang)
      end
    | (d, Err e) => (close_delta v (path DeltaFile) ds d, Err e)
    | (d, Panic) => (d, Panic)
    | (d, Hang) => (d, Hang)
    end.

(** Start of a namespace as it is. *)
Definition ns_start (v : senv) (factory : io file unit) (x : lns) : io disk (dstore * istore) :=
  ns_start_with v (if ln_has_factory x then Some factory else None) x.
