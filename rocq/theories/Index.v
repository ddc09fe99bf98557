(** Model of internal/infra/index: protocol.go, storage.go, storagefactory.go. *)
From Verif Require Import Base GoIO Lock.

(** ** protocol.go *)

(** protocol.go:29-33 *)
Record iheader := IHeader { ih_version : Z; ih_locked : Z; ih_count : Z }.
(** protocol.go:36-39 *)
Record ientry := IEntry { ie_id : Z; ie_index : Z }.

(** protocol.go:11 *)
Definition index_version : Z := 1.
(** protocol.go:14.  The entry size of line 17 is only returned as a byte count, which no
    caller uses. *)
Definition index_header_size : Z := 1 + 1 + 4.
(** protocol.go:20 *)
Definition index_prefix : list byte := ascii_bytes "RECIDX".
Definition index_prefix_len : Z := Z.of_nat (length index_prefix).
(** protocol.go:23, 26 *)
Definition index_entries_offset : Z := index_prefix_len + index_header_size.
Definition index_locked_offset : Z := index_prefix_len + 1.

(** protocol.go:82-88 WritePrefix *)
Definition i_write_prefix {W} (wr : writer W) : io W unit := write_all wr index_prefix.

(** protocol.go:91-101 ReadPrefix *)
Definition i_read_prefix {R} (rd : reader R) : io R unit :=
  do buffer <- read_full rd (length index_prefix);
  if bool_decide (buffer = index_prefix) then ioret tt else iofail (EMsg "not an index file").

(** protocol.go:104-118 WriteHeader *)
Definition i_write_header {W} (wr : writer W) (h : iheader) : io W unit :=
  run write_uint wr 1 (ih_version h);
  run write_uint wr 1 (ih_locked h);
  write_uint wr 4 (ih_count h).

(** protocol.go:121-131 ReadHeader *)
Definition i_read_header {R} (rd : reader R) : io R iheader :=
  do buffer <- read_full rd (Z.to_nat index_header_size);
  ioret (IHeader (be_dec (take 1 buffer)) (be_dec (take 1 (drop 1 buffer)))
                 (be_dec (take 4 (drop 2 buffer)))).

(** protocol.go:134-144 WriteEntry *)
Definition i_write_entry {W} (wr : writer W) (e : ientry) : io W unit :=
  run write_uint wr 8 (ie_id e);
  write_uint wr 8 (ie_index e).

(** protocol.go:147-159 ReadEntry *)
Definition i_read_entry {R} (rd : reader R) : io R ientry :=
  do id <- read_uint rd 8;
  do index <- read_uint rd 8;
  ioret (IEntry id index).

(** protocol.go:163-211 *)
Definition i_write_locked : bool -> io file unit := write_locked_at index_locked_offset.
Definition i_is_locked : io file bool := is_locked_at index_locked_offset.

(** ** storage.go *)

(** storage.go:12-17; [is_closer]: whether the closer is set (then it is the file,
    storagefactory.go:37). *)
Record istore := IStore { is_map : gmap Z Z; is_file : file; is_closer : bool }.

(** [if s.closer != nil { s.closer.Close() }] *)
Definition close_if (c : bool) (f : file) : file := if c then fst (fclose f) else f.
(** The same when the call fails. *)
Definition closing (c : bool) {A} (m : io file A) : io file A := fun f =>
  match m f with (f', Err e) => (close_if c f', Err e) | x => x end.
Definition closing_bw (c : bool) {A} (m : io (bwriter file) A) : io (bwriter file) A := fun b =>
  match m b with
  | (b', Err e) => (BWriter (close_if c (bw_w b')) (bw_buf b') (bw_err b'), Err e)
  | x => x
  end.

(** storage.go:23-42 create.  [bsz]: the buffer size of the bufio.Writers. *)
Definition i_create (bsz : nat) : io file unit :=
  with_bufio (
    run iomaperr (fun _ => EMsg "failed to write index prefix") (i_write_prefix (bw_write fwrite bsz));
    run iomaperr (fun _ => EMsg "failed to write index header")
      (i_write_header (bw_write fwrite bsz) (IHeader index_version 1 0));
    iomaperr (fun _ => EMsg "failed to flush writer") (bw_flush fwrite)).

(** storage.go:70-80: the announced entries; a later entry for an id replaces the
    earlier one. *)
Fixpoint i_load_entries {R} (rd : reader R) (n : nat) (m : gmap Z Z) : io R (gmap Z Z) :=
  match n with
  | O => ioret m
  | S n =>
    do e <- iomaperr (fun _ => EMsg "failed to read index entry") (i_read_entry rd);
    i_load_entries rd n (<[ie_id e := ie_index e]> m)
  end.

(** storage.go:45-82 load.  The lock is written to the file while the bufio.Reader
    ([rsz]: its buffer size) may have read ahead. *)
Definition i_load (rsz : nat) : io file (gmap Z Z) :=
  run fseek 0 SeekStart;
  with_breader (
    run iomaperr (fun _ => EMsg "failed to read index prefix") (i_read_prefix (br_read fread rsz));
    do hdr <- iomaperr (fun _ => EMsg "failed to read index header") (i_read_header (br_read fread rsz));
    if negb (ih_locked hdr =? 0) then iofail (EMsg "broken index file (after unexpected termination)")
    else
      run iomaperr (fun _ => EMsg "failed to write file lock") (under_reader (i_write_locked true));
      i_load_entries (br_read fread rsz) (Z.to_nat (ih_count hdr)) ∅).

(** storage.go:107-133 saveHeader *)
Definition i_save_header (bsz : nat) (locked : bool) (m : gmap Z Z) (c : bool) : io file unit :=
  let header := IHeader index_version (if locked then 1 else 0) (u32 (Z.of_nat (size m))) in
  run closing c (iomaperr (fun _ => EMsg "failed to seek") (fseek index_prefix_len SeekStart));
  with_bufio (
    run closing_bw c (iomaperr (fun _ => EMsg "failed to write index header")
      (i_write_header (bw_write fwrite bsz) header));
    iomaperr (fun _ => EMsg "failed flush buffer") (bw_flush fwrite)).

(** storage.go:142-149: the loop over the map. *)
Fixpoint i_write_entries {W} (wr : writer W) (l : list (Z * Z)) : io W unit :=
  match l with
  | [] => ioret tt
  | (id, idx) :: l =>
    run iomaperr (fun _ => EMsg "failed to write entry") (i_write_entry wr (IEntry id idx));
    i_write_entries wr l
  end.

(** The order in which [range indices] visits the map. *)
Notation index_order := (shuffle (Z * Z)).

(** storage.go:136-156 saveEntries *)
Definition i_save_entries (bsz : nat) (sh : index_order) (m : gmap Z Z) : io file unit :=
  run iomaperr (fun _ => EMsg "failed to seek") (fseek index_entries_offset SeekStart);
  with_bufio (
    run i_write_entries (bw_write fwrite bsz) (shuf sh (map_to_list m));
    iomaperr (fun _ => EMsg "failed flush buffer") (bw_flush fwrite)).

(** storage.go:85-104 Close *)
Definition i_close (bsz : nat) (sh : index_order) : io istore unit := fun s =>
  let '(f, o) :=
    (run closing (is_closer s) (i_save_header bsz false (is_map s) (is_closer s));
     run closing (is_closer s) (i_save_entries bsz sh (is_map s));
     if is_closer s then fclose else ioret tt) (is_file s) in
  (IStore (is_map s) f (is_closer s), o).

(** storage.go:159-162 Get *)
Definition i_get (s : istore) (id : Z) : option Z := is_map s !! id.

(** storage.go:165-169 Put *)
Definition i_put (id index : Z) (s : istore) : istore :=
  IStore (<[id := index]> (is_map s)) (is_file s) (is_closer s).

(** storage.go:172-178 Remove *)
Definition i_remove (id : Z) (s : istore) : istore :=
  match is_map s !! id with
  | None => s
  | Some _ => IStore (delete id (is_map s)) (is_file s) (is_closer s)
  end.

(** ** storagefactory.go *)

(** storagefactory.go:43-78 Open *)
Definition i_open (bsz rsz : nat) (c : bool) : io file istore :=
  do size <- closing c (fseek 0 SeekEnd);
  do m <-
    (if 0 <? size then closing c (iomaperr (fun _ => EMsg "failed to load index") (i_load rsz))
     else run closing c (iomaperr (fun _ => EMsg "failed to load index") (i_create bsz)); ioret ∅);
  fun f => (f, Ret (IStore m f c)).
