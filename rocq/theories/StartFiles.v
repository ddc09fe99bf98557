(** likeNamespace.Start once more (internal/domain/likenamespace.go:95-170), with the
    files it leaves open.  [StartFilesFacts.v] proves that it does to the disk, and
    returns, what LikeStart.v says. *)
From Verif Require Import Base GoIO Delta Index Naming Service LikeStart.

(** The disk, and the files the process has open (one entry for every descriptor). *)
Record osys := OSys { o_disk : disk; o_open : list (list byte) }.

(** One descriptor of the file is gone. *)
Fixpoint release (path : list byte) (l : list (list byte)) : list (list byte) :=
  match l with
  | [] => []
  | p :: l => if decide (p = path) then l else p :: release path l
  end.

(** os.OpenFile *)
Definition fs_open (o : osfile) (path : list byte) : io osys file := fun s =>
  match os_open o path (o_disk s) with
  | (d, Ret f) => (OSys d (path :: o_open s), Ret f)
  | (d, Err e) => (OSys d (o_open s), Err e)
  | (d, Panic) => (OSys d (o_open s), Panic)
  | (d, Hang) => (OSys d (o_open s), Hang)
  end.

(** What was done to the open file is on disk; if it was closed, its descriptor is
    gone. *)
Definition settle (path : list byte) (f : file) (s : osys) : osys :=
  OSys (keep path f (o_disk s)) (if f_closed f then release path (o_open s) else o_open s).

(** likenamespace.go:95-107 openMaybeRecoverDeltaStorage *)
Definition fs_open_delta (v : senv) (path : list byte) : io osys dstore :=
  do f <- iomaperr (EWrap "failed to open delta file") (fs_open (se_delta v) path);
  fun s =>
    match d_open_maybe_recover (se_csz v) f with
    | (f', Ret ds) => (settle path f' s, Ret ds)
    | (f', Err e) => (settle path (fst (fclose f')) s, Err (EWrap "failed to open delta storage" e))
    | (f', Panic) => (settle path f' s, Panic)
    | (f', Hang) => (settle path f' s, Hang)
    end.

(** likenamespace.go:110-134 openMaybeResetIndexStorage *)
Definition fs_open_index (v : senv) (path : list byte) : io osys istore :=
  do f <- iomaperr (EWrap "failed to open delta file") (fs_open (se_index v) path);
  fun s =>
    match i_open (se_bsz v) (se_rsz v) true f with
    | (f', Ret is) => (settle path f' s, Ret is)
    | (f', Err e) =>
      if negb (is_corrupted_error e)
      then (settle path (fst (fclose f')) s, Err (EWrap "failed to open delta storage" e))
      else
        match ftruncate 0 f' with
        | (f2, Ret _) =>
          match i_open (se_bsz v) (se_rsz v) true f2 with
          | (f3, Ret is) => (settle path f3 s, Ret is)
          | (f3, Err e) => (settle path (fst (fclose f3)) s, Err (EWrap "failed to open index file" e))
          | (f3, Panic) => (settle path f3 s, Panic)
          | (f3, Hang) => (settle path f3 s, Hang)
          end
        | (f2, Err e) => (settle path (fst (fclose f2)) s, Err (EWrap "failed to truncate" e))
        | (f2, Panic) => (settle path f2 s, Panic)
        | (f2, Hang) => (settle path f2 s, Hang)
        end
    | (f', Panic) => (settle path f' s, Panic)
    | (f', Hang) => (settle path f' s, Hang)
    end.

(** likenamespace.go:137-152 openMaybeRecoverLikeStorage *)
Definition fs_open_like (v : senv) (factory : option (io file unit)) (path : list byte) : io osys unit :=
  do f <- iomaperr (EWrap "failed to open recdb file") (fs_open (se_recdb v) path);
  fun s =>
    match factory with
    | None => (settle path f s, Panic)
    | Some m =>
      match m f with
      | (f', Ret _) => (settle path f' s, Ret tt)
      | (f', Err e) => (settle path (fst (fclose f')) s, Err (EWrap "failed to open like storage" e))
      | (f', Panic) => (settle path f' s, Panic)
      | (f', Hang) => (settle path f' s, Hang)
      end
    end.

(** The Close calls of the failure paths; their errors are ignored. *)
Definition fs_close_delta (v : senv) (path : list byte) (ds : dstore) (s : osys) : osys :=
  settle path (ds_file (fst (d_close (se_bsz v) (se_dsh v) ds))) s.
Definition fs_close_index (v : senv) (path : list byte) (is : istore) (s : osys) : osys :=
  settle path (is_file (fst (i_close (se_bsz v) (se_ish v) is))) s.

(** likenamespace.go:155-170 Start, up to the worker. *)
Definition fs_start (v : senv) (factory : option (io file unit)) (x : lns) : io osys (dstore * istore) :=
  let path := ns_file_path (ln_base x) (ln_name x) in
  do ds <- fs_open_delta v (path DeltaFile);
  fun s =>
    match fs_open_index v (path IndexFile) s with
    | (s, Ret is) =>
      match fs_open_like v factory (path RecdbFile) s with
      | (s, Ret _) => (s, Ret (ds, is))
      | (s, Err e) => (fs_close_index v (path IndexFile) is (fs_close_delta v (path DeltaFile) ds s), Err e)
      | (s, Panic) => (s, Panic)
      | (s, Hang) => (s, Hang)
      end
    | (s, Err e) => (fs_close_delta v (path DeltaFile) ds s, Err e)
    | (s, Panic) => (s, Panic)
    | (s, Hang) => (s, Hang)
    end.

(** likenamespace.go:172-174: the Close calls when the worker ends, in the order in
    which they run (that of the like storage, for which there is no code, is last). *)
Definition fs_end (v : senv) (x : lns) (ds : dstore) (is : istore) (s : osys) : osys :=
  let path := ns_file_path (ln_base x) (ln_name x) in
  fs_close_delta v (path DeltaFile) ds (fs_close_index v (path IndexFile) is s).
