(** The memory that reading a database entry asks for: protocol.go:267-294 and
    likeprotocol.go:26-71 of internal/infra/recdb once more, with a counter of the
    bytes requested for slices of a length taken from the file.  RecdbMemFacts.v proves
    that leaving the counter out gives the functions of Recdb.v. *)
From Verif Require Import Base GoIO Profile Recdb.

(** make of [n] bytes *)
Definition request {S} (n : Z) : io (S * Z) unit := fun '(s, z) => ((s, z + n), Ret tt).

(** likeprotocol.go:39-40, 50-51: make([]uint64, n), then binary.Read, which makes a
    buffer of 8n bytes before it reads (encoding/binary/binary.go, Go 1.19:
    [bs := make([]byte, n)]). *)
Definition make_and_read {R} (rd : reader R) (n : Z) : io ((R * rentry) * Z) (list Z) :=
  run request (8 * n);
  run request (8 * n);
  on_fst (on_fst (read_uint64s rd (Z.to_nat n))).

(** likeprotocol.go:26-71 ReadEntryData *)
Definition r_read_entry_data_mem {R} (rd : reader R) : io ((R * rentry) * Z) Z :=
  do userId <- on_fst (on_fst (read_uint rd 8));
  do numLikes <- on_fst (on_fst (read_uint rd 4));
  do likes <- make_and_read rd numLikes;
  do numDislikes <- on_fst (on_fst (read_uint rd 4));
  do dislikes <- make_and_read rd numDislikes;
  let data := DProfile (Profile userId likes dislikes) in
  run on_fst (set_data data);
  do size <- iolift (r_predict_data_size data);
  do capacity <- on_fst get_cap;
  if u32 (capacity - entry_header_size) <? size
  then iofail (EMsg "entry's capacity is less than data len")
  else ioret size.

(** protocol.go:267-294 ReadEntry *)
Definition r_read_entry_mem {R} (rd : reader R) : io ((R * rentry) * Z) Z :=
  iomaperr (fun _ => EMsg "failed to read database entry") (
    do capacity <- on_fst (on_fst (read_uint rd 4));
    run on_fst (set_cap capacity);
    do bytes <- on_fst (on_fst (read_full rd 1));
    run on_fst (set_deleted (be_dec bytes));
    do dataLen <- r_read_entry_data_mem rd;
    let numZeros := capacity - entry_header_size - dataLen in
    run on_fst (on_fst (only_err (skip_reading rd numZeros)));
    ioret capacity).
