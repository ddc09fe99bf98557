(** Several storages over one delta file: each has opened the file for itself, as the
    factory does when it is called twice with the same path (storagefactory.go:62-157
    of internal/infra/delta), so each has its own file pointer, and all of them see the
    same content.  Calls are taken one at a time. *)
From Verif Require Import Base GoIO SpecLock SpecDelta Delta DeltaSession.

(** The storage with the content that the file has now. *)
Definition sees (d : list byte) (s : dstore) : dstore :=
  let f := ds_file s in
  DStore (ds_cache s) (ds_new s) (ds_total s) (ds_unflushed s)
    (File (f_kind f) d (f_pos f) (f_closed f) (f_env f) (f_log f)).

(** [sharing bsz n d hs]: after some calls the file contains [d] and the storages [hs]
    are open on it; [n] bounds the operations handed to them.  Storages are opened by
    Open alone. *)
Inductive sharing (bsz : nat) : nat -> list byte -> list dstore -> Prop :=
| sharing_empty : sharing bsz 0 [] []
| sharing_image ops : Forall op_typed ops ->
    sharing bsz (S (length ops)) (delta_image 0 (map op_bytes ops)) []
| sharing_open n d hs f f' s : sharing bsz n d hs ->
    usable f -> f_data f = d -> d_open f = (f', Ret s) ->
    sharing bsz n (f_data f') (hs ++ [s])
| sharing_call n d hs i s c s' : sharing bsz n d hs -> hs !! i = Some s ->
    ev_typed (event_of c) -> d_call bsz c (sees d s) = (s', Ret tt) ->
    sharing bsz (S n) (f_data (ds_file s')) (<[i := s']> hs)
| sharing_close n d hs i s sh s' : sharing bsz n d hs -> hs !! i = Some s ->
    d_close bsz sh (sees d s) = (s', Ret tt) ->
    sharing bsz (S n) (f_data (ds_file s')) (delete i hs).
