(** Model of internal/infra/delta: protocol.go, storage.go, storagefactory.go. *)
From Verif Require Import Base GoIO Lock.

(** ** protocol.go *)

(** protocol.go:12-16 *)
Record dheader := DHeader { dh_version : Z; dh_locked : Z; dh_count : Z }.
(** protocol.go:19-24 *)
Record dentry := DEntry { de_op : Z; de_user : Z; de_item : Z; de_sum : Z }.

(** protocol.go:27 *)
Definition delta_version : Z := 1.
(** protocol.go:31, 35 *)
Definition delta_header_size : Z := 1 + 1 + 4.
Definition delta_entry_size : Z := 1 + 8 + 8 + 1.
(** protocol.go:38 *)
Definition delta_prefix : list byte := ascii_bytes "RECDELTA".
Definition delta_prefix_len : Z := Z.of_nat (length delta_prefix).
(** protocol.go:41 *)
Definition delta_locked_offset : Z := delta_prefix_len + 1.

(** protocol.go:97-100 WritePrefix *)
Definition d_write_prefix {W} (wr : writer W) : io W unit := write_all wr delta_prefix.

(** protocol.go:103-113 ReadPrefix *)
Definition d_read_prefix {R} (rd : reader R) : io R unit :=
  do buffer <- read_full rd (length delta_prefix);
  if bool_decide (buffer = delta_prefix) then ioret tt else iofail (EMsg "not a delta file").

(** protocol.go:116-126 WriteHeader *)
Definition d_write_header {W} (wr : writer W) (h : dheader) : io W unit :=
  run write_uint wr 1 (dh_version h);
  run write_uint wr 1 (dh_locked h);
  write_uint wr 4 (dh_count h).

(** protocol.go:129-139 ReadHeader *)
Definition d_read_header {R} (rd : reader R) : io R dheader :=
  do buffer <- read_full rd (Z.to_nat delta_header_size);
  ioret (DHeader (be_dec (take 1 buffer)) (be_dec (take 1 (drop 1 buffer)))
                 (be_dec (take 4 (drop 2 buffer)))).

(** protocol.go:142-150 calcUint64Checksum (byte arithmetic wraps) *)
Definition uint64_checksum (n : Z) : Z := fold_left (fun sum b => u8 (sum + b)) (be_enc 8 n) 0.

(** protocol.go:153-155 CalcEntryChecksum *)
Definition entry_checksum (e : dentry) : Z :=
  u8 (u8 (de_op e + uint64_checksum (de_user e)) + uint64_checksum (de_item e)).

(** protocol.go:158-172 WriteEntry (the checksum field of the entry is not used) *)
Definition d_write_entry {W} (wr : writer W) (e : dentry) : io W unit :=
  run write_uint wr 1 (de_op e);
  run write_uint wr 8 (de_user e);
  run write_uint wr 8 (de_item e);
  write_uint wr 1 (entry_checksum e).

(** protocol.go:175-189 ReadEntry *)
Definition d_read_entry {R} (rd : reader R) : io R dentry :=
  do op <- read_uint rd 1;
  do user <- read_uint rd 8;
  do item <- read_uint rd 8;
  do sum <- read_uint rd 1;
  ioret (DEntry op user item sum).

(** protocol.go:192-194 ValidateEntryChecksum *)
Definition validate_checksum (e : dentry) : bool := entry_checksum e =? de_sum e.

(** protocol.go:199-248 *)
Definition d_write_locked : bool -> io file unit := write_locked_at delta_locked_offset.
Definition d_is_locked : io file bool := is_locked_at delta_locked_offset.

(** protocol.go:287-302, the copy loop of RecoverTo: stops at the first read error
    of any kind; returns the uint32 counter. *)
Fixpoint recover_loop {R} (rd : reader R) (fuel : nat) (count : Z) : io (R * file) Z :=
  match fuel with
  | O => iolift Hang
  | S fuel => fun s =>
    match on_fst (d_read_entry rd) s with
    | (s', Ret e) =>
      if negb (entry_checksum e =? de_sum e) then recover_loop rd fuel count s'
      else
        (run on_snd (d_write_entry fwrite e);
         recover_loop rd fuel (u32 (count + 1))) s'
    | (s', Err _) => (s', Ret count)
    | (s', Panic) => (s', Panic)
    | (s', Hang) => (s', Hang)
    end
  end.

(** protocol.go:253-313 RecoverTo *)
Definition recover_to {R} (rd : reader R) (fuel : nat) : io (R * file) unit :=
  run on_snd (d_write_prefix fwrite);
  fun s =>
  match on_fst (d_read_prefix rd) s with
  | (s, Panic) => (s, Panic)
  | (s, Hang) => (s, Hang)
  | (s, Err _) => on_snd (d_write_header fwrite (DHeader delta_version 0 0)) s
  | (s, Ret tt) =>
    match on_fst (d_read_header rd) s with
    | (s, Panic) => (s, Panic)
    | (s, Hang) => (s, Hang)
    | (s, Err _) => on_snd (d_write_header fwrite (DHeader delta_version 0 0)) s
    | (s, Ret hdr) =>
      (run on_snd (d_write_header fwrite (DHeader delta_version 0 (dh_count hdr)));
       do recovered <- recover_loop rd fuel 0;
       if negb (dh_count hdr =? recovered) then
         run on_snd (fseek delta_prefix_len SeekStart);
         on_snd (d_write_header fwrite (DHeader delta_version 0 recovered))
       else ioret tt) s
    end
  end.

(** ** storage.go *)

(** storage.go:11-14 *)
Record item_delta := ItemDelta { id_item : Z; id_op : Z }.

(** storage.go:17-31 *)
Record dstore := DStore {
  ds_cache : gmap Z (list item_delta);
  ds_new : gmap Z (list item_delta);
  ds_total : Z;
  ds_unflushed : Z;
  ds_file : file
}.

Definition on_dfile {A} (m : io file A) : io dstore A := fun s =>
  let '(f, o) := m (ds_file s) in
  (DStore (ds_cache s) (ds_new s) (ds_total s) (ds_unflushed s) f, o).

(** storage.go:37-55 flushHeader *)
Definition flush_header (bsz : nat) : io dstore unit := fun s =>
  let hdr := DHeader delta_version 1 (u32 (ds_total s)) in
  on_dfile (
    run ignore (fseek delta_prefix_len SeekStart);
    with_bufio (
      run iomaperr (fun _ => EMsg "failed to write header") (d_write_header (bw_write fwrite bsz) hdr);
      iomaperr (fun _ => EMsg "failed to flush buffer") (bw_flush fwrite))) s.

(** append(cache[user], delta), creating the slice if missing. *)
Definition cache_add (c : gmap Z (list item_delta)) (user : Z) (d : item_delta)
  : gmap Z (list item_delta) :=
  <[user := default [] (c !! user) ++ [d]]> c.

(** The order in which [range newDelta] visits the map. *)
Notation new_order := (shuffle (Z * list item_delta)).
Definition visit (sh : new_order) (m : gmap Z (list item_delta)) : list (Z * item_delta) :=
  concat (map (fun '(u, l) => map (fun d => (u, d)) l) (shuf sh (map_to_list m))).

(** storage.go:62-81, the loops of flushEntries. *)
Fixpoint flush_loop (bsz : nat) (l : list (Z * item_delta))
  : io (bwriter file * gmap Z (list item_delta)) unit :=
  match l with
  | [] => ioret tt
  | (user, d) :: l =>
    run on_fst (iomaperr (fun _ => EMsg "failed to write entry")
      (d_write_entry (bw_write fwrite bsz) (DEntry (id_op d) user (id_item d) 0)));
    fun '(b, c) => flush_loop bsz l (b, cache_add c user d)
  end.

(** storage.go:58-91 flushEntries *)
Definition flush_entries (bsz : nat) (sh : new_order) : io dstore unit := fun s =>
  let f := fst (fseek 0 SeekEnd (ds_file s)) in
  let '((b, c), o) :=
    (run flush_loop bsz (visit sh (ds_new s));
     on_fst (iomaperr (fun _ => EMsg "failed to flush buffer") (bw_flush fwrite)))
    (new_bwriter f, ds_cache s) in
  match o with
  | Ret tt => (DStore c ∅ (ds_total s) 0 (bw_w b), Ret tt)
  | _ => (DStore c (ds_new s) (ds_total s) (ds_unflushed s) (bw_w b), o)
  end.

(** storage.go:94-104 Flush *)
Definition d_flush (bsz : nat) (sh : new_order) : io dstore unit :=
  run iomaperr (fun _ => EMsg "failed to flush header") (flush_header bsz);
  iomaperr (fun _ => EMsg "failed to flush entries") (flush_entries bsz sh).

(** storage.go:108-122 Close *)
Definition d_close (bsz : nat) (sh : new_order) : io dstore unit :=
  run iomaperr (fun _ => EMsg "failed to flush cache") (d_flush bsz sh);
  run iomaperr (fun _ => EMsg "failed to lock the file") (on_dfile (d_write_locked false));
  iomaperr (fun _ => EMsg "failed to close the underlying file") (on_dfile fclose).

(** storage.go:125-134 GetUserCount *)
Definition d_user_count (s : dstore) : Z :=
  Z.of_nat (length (filter (fun u => ds_cache s !! u = None) (map fst (map_to_list (ds_new s)))))
  + Z.of_nat (size (ds_cache s)).

(** storage.go:137-139 GetTotalItemCount *)
Definition d_total_count (s : dstore) : Z := ds_total s.

(** storage.go:142-144 GetFileSize (uint64 arithmetic; no overflow below 2^59 items) *)
Definition d_file_size (s : dstore) : Z :=
  ds_total s * delta_entry_size + delta_header_size + delta_prefix_len.

(** storage.go:156-161: the last delta for the item. *)
Fixpoint find_delta (item : Z) (l : list item_delta) : option Z :=
  match l with
  | [] => None
  | d :: l => if id_item d =? item then Some (id_op d) else find_delta item l
  end.

(** storage.go:148-163 Get; [None] stands for (DeltaOpAdd, false). *)
Definition d_get (s : dstore) (user item : Z) : option Z :=
  match ds_new s !! user with
  | Some deltas => find_delta item (rev deltas)
  | None =>
    match ds_cache s !! user with
    | Some deltas => find_delta item (rev deltas)
    | None => None
    end
  end.

(** storage.go:171-177: overwrite the op of the first delta for the item. *)
Fixpoint replace_delta (item op : Z) (l : list item_delta) : option (list item_delta) :=
  match l with
  | [] => None
  | d :: l =>
    if id_item d =? item then Some (ItemDelta item op :: l)
    else option_map (cons d) (replace_delta item op l)
  end.

(** storage.go:166-186 Add *)
Definition d_add (op user item : Z) (s : dstore) : dstore :=
  let deltas := default [] (ds_new s !! user) in
  match replace_delta item op deltas with
  | Some deltas' =>
    DStore (ds_cache s) (<[user := deltas']> (ds_new s)) (ds_total s) (ds_unflushed s) (ds_file s)
  | None =>
    DStore (ds_cache s) (<[user := deltas ++ [ItemDelta item op]]> (ds_new s))
      (ds_total s + 1) (ds_unflushed s + 1) (ds_file s)
  end.

(** ** storagefactory.go *)

(** storagefactory.go:34-59 Recover.  [csz]: the buffer size of io.Copy. *)
Definition d_recover (csz : nat) : io file unit := fun f =>
  let '((f, tmp), o) := recover_to fread (S (length (f_data f))) (f, open_file KBuf []) in
  match o with
  | Ret tt =>
    let '((f, _), o) :=
      (run on_fst (fseek 0 SeekStart);
       run on_snd (fseek 0 SeekStart);
       do size <- (fun '(f, tmp) =>
         let '((tmp, f), o) := copy_loop fread fwrite csz (S (length (f_data tmp))) 0 (tmp, f) in
         ((f, tmp), o));
       run on_fst (ftruncate size);
       on_fst (fseek 0 SeekStart)) (f, tmp) in
    (f, match o with Ret _ => Ret tt | Err e => Err e | Panic => Panic | Hang => Hang end)
  | _ => (f, o)
  end.

(** storagefactory.go:111-126: read the announced number of entries into the cache. *)
Fixpoint load_entries {R} (rd : reader R) (n : nat) (c : gmap Z (list item_delta))
  : io R (gmap Z (list item_delta)) :=
  match n with
  | O => ioret c
  | S n =>
    do e <- iomaperr (fun _ => EMsg "cannot read entry") (d_read_entry rd);
    load_entries rd n (cache_add c (de_user e) (ItemDelta (de_item e) (de_op e)))
  end.

(** storagefactory.go:98-126: the existing content. *)
Definition d_load {R} (rd : reader R) : io R (gmap Z (list item_delta) * Z) :=
  run d_read_prefix rd;
  do hdr <- d_read_header rd;
  if negb (dh_locked hdr =? 0) then iofail (EMsg "the file is corrupted (locked)")
  else
    do c <- load_entries rd (Z.to_nat (dh_count hdr)) ∅;
    ioret (c, dh_count hdr).

(** storagefactory.go:62-136 Open *)
Definition d_open : io file dstore :=
  do size <- fseek 0 SeekEnd;
  do x <-
    (if size =? 0 then
       run d_write_prefix fwrite;
       run d_write_header fwrite (DHeader delta_version 0 0);
       ioret (∅, 0)
     else
       run fseek 0 SeekStart;
       d_load fread);
  run iomaperr (fun _ => EMsg "failed to lock the file") (d_write_locked true);
  fun f => (f, Ret (DStore (fst x) ∅ (snd x) 0 f)).

(** storagefactory.go:140-157 OpenMaybeRecover *)
Definition d_open_maybe_recover (csz : nat) : io file dstore :=
  do locked <- iomaperr (fun _ => EMsg "failed to check if file is locked") d_is_locked;
  run (if locked then iomaperr (fun _ => EMsg "failed to recover") (d_recover csz) else ioret tt);
  fun f =>
    match d_open f with
    | (f', Err e) => (fst (fclose f'), Err e)
    | x => x
    end.

(** ** Histories *)

(** What a user of an open storage can do to it; each Flush visits the map in an
    order of its own. *)
Inductive dcall := DAdd (op user item : Z) | DFlush (sh : new_order).

Definition d_call (bsz : nat) (c : dcall) : io dstore unit :=
  match c with
  | DAdd op user item => fun s => (d_add op user item s, Ret tt)
  | DFlush sh => d_flush bsz sh
  end.

Fixpoint d_calls (bsz : nat) (cs : list dcall) : io dstore unit :=
  match cs with
  | [] => ioret tt
  | c :: cs => run d_call bsz c; d_calls bsz cs
  end.
