(** The memory that opening a delta file asks for: storagefactory.go:62-136 of
    internal/infra/delta once more, with the capacities of the slices of the cache and a
    counter of the bytes requested for them.  An itemDelta (storage.go:11-14) takes 16
    bytes.  Not counted: the buckets of the map and the fixed number of bytes read at a
    time.  DeltaMemFacts.v proves that leaving capacities and counter out gives the
    functions of Delta.v. *)
From Verif Require Import Base GoIO Lock Delta RecdbMem.

(** The cache: for each user the items and the capacity of their slice. *)
Notation sized_cache := (gmap Z (list item_delta * nat)).

(** storagefactory.go:116-124: look the user up, make a slice of capacity 100 if there is
    none, append.  append makes a slice of capacity [grow cap] when the old one is full. *)
Definition cache_append {S} (grow : nat -> nat) (c : sized_cache) (user : Z) (d : item_delta)
  : io (S * Z) sized_cache :=
  match c !! user with
  | None =>
    run request (16 * 100);
    ioret (<[user := ([d], 100%nat)]> c)
  | Some (items, cap) =>
    if (length items <? cap)%nat then ioret (<[user := (items ++ [d], cap)]> c)
    else
      run request (16 * Z.of_nat (grow cap));
      ioret (<[user := (items ++ [d], grow cap)]> c)
  end.

(** storagefactory.go:111-126 *)
Fixpoint load_entries_mem {R} (rd : reader R) (grow : nat -> nat) (n : nat) (c : sized_cache)
  : io (R * Z) sized_cache :=
  match n with
  | O => ioret c
  | S n =>
    do e <- on_fst (iomaperr (fun _ => EMsg "cannot read entry") (d_read_entry rd));
    do c <- cache_append grow c (de_user e) (ItemDelta (de_item e) (de_op e));
    load_entries_mem rd grow n c
  end.

(** storagefactory.go:98-126 *)
Definition d_load_mem {R} (rd : reader R) (grow : nat -> nat) : io (R * Z) (sized_cache * Z) :=
  run on_fst (d_read_prefix rd);
  do hdr <- on_fst (d_read_header rd);
  if negb (dh_locked hdr =? 0) then iofail (EMsg "the file is corrupted (locked)")
  else
    do c <- load_entries_mem rd grow (Z.to_nat (dh_count hdr)) ∅;
    ioret (c, dh_count hdr).

(** storagefactory.go:62-136 Open *)
Definition d_open_mem (grow : nat -> nat) : io (file * Z) dstore :=
  do size <- on_fst (fseek 0 SeekEnd);
  do x <-
    (if size =? 0 then
       run on_fst (d_write_prefix fwrite);
       run on_fst (d_write_header fwrite (DHeader delta_version 0 0));
       ioret (∅, 0)
     else
       run on_fst (fseek 0 SeekStart);
       d_load_mem fread grow);
  run on_fst (iomaperr (fun _ => EMsg "failed to lock the file") (d_write_locked true));
  on_fst (fun f => (f, Ret (DStore (fst <$> fst x) ∅ (snd x) 0 f))).
