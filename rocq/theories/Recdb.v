(** Model of internal/infra/recdb: protocol.go, likeprotocol.go, iterator.go.
    The only concrete protocol in the repository is the like protocol, so [protocol]
    is modelled with it in place of the ConcreteProtocol interface. *)
From Verif Require Import Base GoIO Lock Profile.

(** ** protocol.go *)

(** protocol.go:36-51 *)
Record rheader := RHeader {
  rh_version : Z; rh_type : list byte (* [8]byte *); rh_locked : Z; rh_count : Z }.

(** The dynamic value of protocol.go:62 [Data any]: nil, a nil *domain.Profile, a
    *domain.Profile, or a value of any other type. *)
Inductive edata := DNil | DNilProfile | DProfile (p : profile) | DOther.

(** protocol.go:54-63 *)
Record rentry := REntry { re_cap : Z; re_deleted : Z; re_data : edata }.
Definition zero_entry : rentry := REntry 0 0 DNil.

(** protocol.go:14, 17, 20 *)
Definition recdb_version : Z := 1.
Definition recdb_header_size : Z := 1 + 8 + 1 + 4.
Definition entry_header_size : Z := 4 + 1.
(** protocol.go:23 *)
Definition recdb_prefix : list byte := ascii_bytes "RECDB".
Definition recdb_prefix_len : Z := Z.of_nat (length recdb_prefix).
(** protocol.go:26, 29, 32 *)
Definition recdb_entries_offset : Z := recdb_prefix_len + recdb_header_size.
Definition recdb_locked_offset : Z := recdb_prefix_len + 1 + 8.
Definition min_entry_capacity : Z := entry_header_size + 8 * 30.

(** protocol.go:186-192 WritePrefix *)
Definition r_write_prefix {W} (wr : writer W) : io W unit :=
  iomaperr (fun _ => EMsg "failed to write RECDB prefix") (write_all wr recdb_prefix).

(** protocol.go:196-206 ReadPrefix *)
Definition r_read_prefix {R} (rd : reader R) : io R unit :=
  do buffer <- read_full rd (length recdb_prefix);
  if bool_decide (buffer = recdb_prefix) then ioret tt else iofail (EMsg "invalid prefix").

(** protocol.go:209-220 WriteHeader *)
Definition r_write_header {W} (wr : writer W) (h : rheader) : io W unit :=
  let buffer := [rh_version h] ++ rh_type h ++ [rh_locked h] ++ be_enc 4 (rh_count h) in
  iomaperr (fun _ => EMsg "failed to write RECDB header") (write_all wr buffer).

(** protocol.go:223-234 ReadHeader *)
Definition r_read_header {R} (rd : reader R) : io R rheader :=
  do buffer <- iomaperr (fun _ => EMsg "failed to read database header")
                 (read_full rd (Z.to_nat recdb_header_size));
  ioret (RHeader (be_dec (take 1 buffer)) (take 8 (drop 1 buffer))
                 (be_dec (take 1 (drop 9 buffer))) (be_dec (take 4 (drop 10 buffer)))).

(** ** likeprotocol.go *)

(** likeprotocol.go:113-115 GetEntryType *)
Definition like_entry_type : list byte := ascii_bytes "LIKE    ".

(** likeprotocol.go:118-124 PredictDataSize ([int] cannot overflow: slices of 2^59
    elements do not exist). *)
Definition like_size (p : profile) : Z :=
  8 + 4 + Z.of_nat (length (p_likes p)) * 8 + 4 + Z.of_nat (length (p_dislikes p)) * 8.
Definition r_predict_data_size (d : edata) : outcome Z :=
  match d with
  | DProfile p => Ret (like_size p)
  | DNilProfile => Panic                  (* nil pointer dereference *)
  | DNil | DOther => Err (EMsg "unknown data type")
  end.

(** Assignments to the fields of the entry. *)
Definition set_cap {R} (c : Z) : io (R * rentry) unit :=
  on_snd (fun e => (REntry c (re_deleted e) (re_data e), Ret tt)).
Definition set_deleted {R} (d : Z) : io (R * rentry) unit :=
  on_snd (fun e => (REntry (re_cap e) d (re_data e), Ret tt)).
Definition set_data {R} (x : edata) : io (R * rentry) unit :=
  on_snd (fun e => (REntry (re_cap e) (re_deleted e) x, Ret tt)).
Definition get_cap {R} : io (R * rentry) Z := on_snd (fun e => (e, Ret (re_cap e))).

(** likeprotocol.go:26-71 ReadEntryData: reads from the first component and fills
    the entry in the second.  The slices are allocated before their bytes are read;
    memory is taken to be unlimited.  Line 66 subtracts in uint32. *)
Definition r_read_entry_data {R} (rd : reader R) : io (R * rentry) Z :=
  do userId <- on_fst (read_uint rd 8);
  do numLikes <- on_fst (read_uint rd 4);
  do likes <- on_fst (read_uint64s rd (Z.to_nat numLikes));
  do numDislikes <- on_fst (read_uint rd 4);
  do dislikes <- on_fst (read_uint64s rd (Z.to_nat numDislikes));
  let data := DProfile (Profile userId likes dislikes) in
  run set_data data;
  do size <- iolift (r_predict_data_size data);
  do capacity <- get_cap;
  if u32 (capacity - entry_header_size) <? size
  then iofail (EMsg "entry's capacity is less than data len")
  else ioret size.

(** likeprotocol.go:76-109 WriteEntryData.  For nil data, line 82 calls Name on a nil
    reflect.Type; a nil *domain.Profile is dereferenced on line 86. *)
Definition r_write_entry_data {W} (wr : writer W) (e : rentry) : io W Z :=
  match re_data e with
  | DOther => iofail (EMsg "entry's data type doesn't represent like profile")
  | DNil | DNilProfile => iolift Panic
  | DProfile p =>
    run write_uint wr 8 (p_user p);
    run write_uint wr 4 (u32 (Z.of_nat (length (p_likes p))));
    run write_uint64s wr (p_likes p);
    run write_uint wr 4 (u32 (Z.of_nat (length (p_dislikes p))));
    run write_uint64s wr (p_dislikes p);
    iolift (r_predict_data_size (DProfile p))
  end.

(** ** protocol.go, entries *)

(** protocol.go:239-262 WriteEntry *)
Definition r_write_entry {W} (wr : writer W) (e : rentry) : io W Z :=
  iomaperr (EWrap "failed to write database entry") (
    run write_uint wr 4 (re_cap e);
    run write_uint wr 1 (re_deleted e);
    do dataLen <- r_write_entry_data wr e;
    let numZeros := re_cap e - entry_header_size - dataLen in
    run (if 0 <? numZeros then only_err (write_zeros wr numZeros) else ioret tt);
    ioret (re_cap e)).

(** protocol.go:267-294 ReadEntry *)
Definition r_read_entry {R} (rd : reader R) : io (R * rentry) Z :=
  iomaperr (fun _ => EMsg "failed to read database entry") (
    do capacity <- on_fst (read_uint rd 4);
    run set_cap capacity;
    do bytes <- on_fst (read_full rd 1);
    run set_deleted (be_dec bytes);
    do dataLen <- r_read_entry_data rd;
    let numZeros := capacity - entry_header_size - dataLen in
    run on_fst (only_err (skip_reading rd numZeros));
    ioret capacity).

(** protocol.go:298-347 *)
Definition r_write_locked : bool -> io file unit := write_locked_at recdb_locked_offset.
Definition r_is_locked : io file bool := is_locked_at recdb_locked_offset.

(** protocol.go:349-355 PredictEntrySize *)
Definition r_predict_entry_size (e : rentry) : outcome Z :=
  match r_predict_data_size (re_data e) with
  | Ret size => Ret (size + entry_header_size)
  | Err x => Err (EWrap "cannot predict data size" x)
  | Panic => Panic
  | Hang => Hang
  end.

(** protocol.go:358-367 PredictEntryCapacity *)
Definition r_predict_entry_capacity (e : rentry) : outcome Z :=
  match r_predict_entry_size e with
  | Ret size =>
    if size <? min_entry_capacity then Ret min_entry_capacity else Ret (size + Z.quot size 2)
  | Err x => Err (EWrap "cannot predict entry size" x)
  | Panic => Panic
  | Hang => Hang
  end.

(** protocol.go:148-156: what Create hands to its bufio.Writer ([bsz]: the size of
    its buffer). *)
Definition r_create_fill {W} (wr : writer W) (bsz : nat) : io (bwriter W) unit :=
  run r_write_prefix (bw_write wr bsz);
  r_write_header (bw_write wr bsz) (RHeader recdb_version like_entry_type 0 0).

(** protocol.go:146-158 Create: the bufio.Writer is dropped without a Flush. *)
Definition r_create {W} (wr : writer W) (bsz : nat) : io W unit := fun w =>
  let '(b, o) := r_create_fill wr bsz (new_bwriter w) in
  (bw_w b, o).

(** protocol.go:164-183 OpenOrCreateFile, for a path that can be opened ([Some] content)
    or does not exist and can be created.  An existing file is opened read-only. *)
Definition r_open_or_create (bsz : nat) (on_disk : option (list byte)) : file * outcome unit :=
  match on_disk with
  | Some d => (open_file KOs d, Ret tt)
  | None =>
    match r_create fwrite bsz (open_file KOs []) with
    | (f, Ret _) => (fst (fseek 0 SeekStart f), Ret tt)
    | (f, Err e) => (fst (fclose f), Err e)
    | (f, o) => (f, o)
    end
  end.

(** ** iterator.go *)

(** iterator.go:29-37.  [it_reader]: the bufio.Reader with the file under it.  The
    field fileOffset is assigned but never read, so it is left out. *)
Record iter := Iter {
  it_header : rheader; it_reader : breader file; it_index : Z; it_entry : rentry }.
Definition it_file (it : iter) : file := br_r (it_reader it).

(** iterator.go:43-63 NewIterator: prefix and header are read from the file itself. *)
Definition r_new_iterator (f : file) : file * outcome iter :=
  let m := (
    run iomaperr (fun _ => EMsg "failed to rewind DB iterator") (fseek 0 SeekStart);
    run iomaperr (fun _ => EMsg "failed to read DB prefix") (r_read_prefix fread);
    iomaperr (fun _ => EMsg "failed to read DB header") (r_read_header fread)) in
  match m f with
  | (f', Ret header) =>
    if negb (rh_locked header =? 0) then (f', Err ECorrupted)
    else (f', Ret (Iter header (new_breader f') 0 zero_entry))
  | (f', Err e) => (f', Err e)
  | (f', Panic) => (f', Panic)
  | (f', Hang) => (f', Hang)
  end.

(** iterator.go:66-75 Rewind *)
Definition r_rewind : io iter unit := fun it =>
  let '(f, o) := fseek recdb_entries_offset SeekStart (it_file it) in
  (Iter (it_header it) (new_breader f) 0 (it_entry it),
   match o with Ret _ => Ret tt | Err _ => Err (EMsg "failed to rewind DB iterator")
              | Panic => Panic | Hang => Hang end).

(** iterator.go:78-80 HasNext *)
Definition r_has_next (it : iter) : bool := it_index it <? rh_count (it_header it).

(** iterator.go:85-97 Next *)
Definition r_next (rsz : nat) : io iter rentry := fun it =>
  if negb (r_has_next it) then (it, Err (EMsg "failed to iterate next: the last entry reached"))
  else
    let '((b, e), o) := r_read_entry (br_read fread rsz) (it_reader it, it_entry it) in
    match o with
    | Ret _ => (Iter (it_header it) b (it_index it + 1) e, Ret e)
    | Err _ => (Iter (it_header it) b (it_index it) e, Err (EMsg "failed to iterate next"))
    | Panic => (Iter (it_header it) b (it_index it) e, Panic)
    | Hang => (Iter (it_header it) b (it_index it) e, Hang)
    end.

(** iterator.go:100-121 SetPrevious: seeks and writes on the file, which may be ahead
    of the bufio.Reader. *)
Definition r_set_previous (e : rentry) : io iter unit := fun it =>
  if it_index it =? 0 then (it, Err (EMsg "failed to set previous entry: at the start"))
  else if negb (re_cap (it_entry it) =? re_cap e) then (it, Err (EMsg "entry capacity mismatch"))
  else
    let m := (
      run iomaperr (fun _ => EMsg "failed to SetPrevious") (fseek (- re_cap e) SeekCurrent);
      do n <- iomaperr (fun _ => EMsg "failed to SetPrevious") (r_write_entry fwrite e);
      if negb (u32 n =? re_cap e) then iofail (EMsg "expected to write %d bytes, written %d")
      else ioret tt) in
    match m (it_file it) with
    | (f, Ret _) => (Iter (it_header it) (new_breader f) (it_index it) (it_entry it), Ret tt)
    | (f, o) =>
      (Iter (it_header it) (BReader f (br_buf (it_reader it)) (br_err (it_reader it)))
            (it_index it) (it_entry it), o)
    end.
