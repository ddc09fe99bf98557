(** The life of a delta file over any number of processes: each opens it with
    OpenMaybeRecover (internal/infra/delta/storagefactory.go:140-157), calls Add and Flush
    without I/O errors and then closes it or dies at any byte of a write.  Dying inside
    OpenMaybeRecover is not an event of a life (that is C29). *)
From Verif Require Import Base GoIO SpecLock SpecCrash SpecDelta SpecLife Delta DeltaSession.

(** [bsz], [csz]: the buffer sizes of bufio.Writer and io.Copy. *)
Inductive life (bsz csz : nat) : list levent -> dstore -> Prop :=
(** The file was created empty. *)
| life_new f f' s :
    usable f -> f_data f = [] -> d_open f = (f', Ret s) -> life bsz csz [] s
(** Add or Flush returned. *)
| life_call H s c s' :
    life bsz csz H s -> ev_typed (event_of c) -> d_call bsz c s = (s', Ret tt) ->
    life bsz csz (H ++ [LDo (event_of c)]) s'
(** Close returned; the file was opened again. *)
| life_reopen H s sh s' f f' t :
    life bsz csz H s -> d_close bsz sh s = (s', Ret tt) ->
    usable f -> f_pos f = 0%nat -> f_data f = f_data (ds_file s') ->
    d_open_maybe_recover csz f = (f', Ret t) ->
    life bsz csz (H ++ [LDo EvFlush]) t
(** The process died after [j] byte writes of the call [c]; the file was opened again. *)
| life_crash_call H s c s' j f f' t :
    life bsz csz H s -> d_call bsz c s = (s', Ret tt) ->
    usable f -> f_pos f = 0%nat -> f_data f = crash_image (ds_file s) (ds_file s') j ->
    d_open_maybe_recover csz f = (f', Ret t) ->
    life bsz csz (H ++ [LCrash]) t
(** The process died in Close, before its last byte write. *)
| life_crash_close H s sh s' j f f' t :
    life bsz csz H s -> d_close bsz sh s = (s', Ret tt) ->
    (j < length (written_by (ds_file s) (ds_file s')))%nat ->
    usable f -> f_pos f = 0%nat -> f_data f = crash_image (ds_file s) (ds_file s') j ->
    d_open_maybe_recover csz f = (f', Ret t) ->
    life bsz csz (H ++ [LCrash]) t.
