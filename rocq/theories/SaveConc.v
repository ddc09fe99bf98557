(** Several SaveNamespaces calls at the same time.  net/http runs every handler in its
    own goroutine and NamespaceService has no lock, so the os.WriteFile calls of the
    handlers overlap.

    os.WriteFile (internal/domain/namespaceservice.go:108) opens the file for writing
    with O_TRUNC, which empties it at once for everybody, writes the data from its own
    position, which starts at 0, and closes.  A write may put down the data in several
    pieces.  Each open, piece and close is one step; the steps of the calls interleave in
    any order.

    Simplification: the data of each call is fixed in advance (json.Marshal of whatever
    list the call saw, which ServiceConc.v describes). *)
From Verif Require Import Base GoIO Similarity Naming Json Service.

(** Where a call stands in namespaceservice.go:107-112; [d] is what it has to write. *)
Inductive saver :=
| SvReady (d : list byte)               (* before os.WriteFile *)
| SvOpen (d : list byte) (pos : nat)    (* the file is open, [pos] bytes are written *)
| SvDone (d : list byte)                (* returned nil *)
| SvFailed (d : list byte).             (* returned an error *)

(** namespaceservice.go:108 os.WriteFile: one step of one call.  [pieces] says whether a
    write may be done in pieces. *)
Inductive save_step (pieces : bool) : list byte * saver -> list byte * saver -> Prop :=
| sv_open c d : save_step pieces (c, SvReady d) ([], SvOpen d 0)
| sv_no_open c d : save_step pieces (c, SvReady d) (c, SvFailed d)
| sv_write c d pos n :
    (0 < n)%nat -> (pos + n <= length d)%nat -> (pieces = false -> n = length d) ->
    save_step pieces (c, SvOpen d pos) (splice pos (take n (drop pos d)) c, SvOpen d (pos + n))
| sv_write_fails c d pos : (pos < length d)%nat ->
    save_step pieces (c, SvOpen d pos) (c, SvFailed d)
| sv_close c d pos : pos = length d -> save_step pieces (c, SvOpen d pos) (c, SvDone d)
| sv_close_fails c d pos : pos = length d -> save_step pieces (c, SvOpen d pos) (c, SvFailed d).

(** The content of the file and all the calls: any call may do its next step. *)
Inductive saves (pieces : bool) : list byte * list saver -> list byte * list saver -> Prop :=
| saves_none s : saves pieces s s
| saves_one c ws i w c' w' s :
    ws !! i = Some w -> save_step pieces (c, w) (c', w') ->
    saves pieces (c', <[i := w']> ws) s ->
    saves pieces (c, ws) s.
