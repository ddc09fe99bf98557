(** Executions of the delta storage: every way of getting an open storage without I/O
    errors, with the history of what was done to it. *)
From Verif Require Import Base GoIO SpecLock SpecDelta Delta.

Definition event_of (c : dcall) : devent :=
  match c with DAdd op user item => EvAdd op user item | DFlush _ => EvFlush end.

Definition op_typed (x : Z * Z * Z) : Prop :=
  let '(op, user, item) := x in is_byte op /\ is_u64 user /\ is_u64 item.
Definition op_bytes (x : Z * Z * Z) : list byte := let '(op, user, item) := x in op_record op user item.
Definition op_event (x : Z * Z * Z) : devent := let '(op, user, item) := x in EvAdd op user item.

(** [bsz]: the buffer size of the bufio.Writers. *)
Inductive session (bsz : nat) : list devent -> dstore -> Prop :=
(** An empty file was opened. *)
| session_new f f' s :
    usable f -> f_data f = [] -> d_open f = (f', Ret s) -> session bsz [] s
(** A well-formed file was opened. *)
| session_image f f' s ops :
    usable f -> Forall op_typed ops -> f_data f = delta_image 0 (map op_bytes ops) ->
    d_open f = (f', Ret s) -> session bsz (map op_event ops ++ [EvFlush]) s
(** Add or Flush was called. *)
| session_call h s c s' :
    session bsz h s -> ev_typed (event_of c) -> d_call bsz c s = (s', Ret tt) ->
    session bsz (h ++ [event_of c]) s'
(** The storage was closed and its file opened again. *)
| session_reopen h s sh s' f f' t :
    session bsz h s -> d_close bsz sh s = (s', Ret tt) ->
    usable f -> f_data f = f_data (ds_file s') -> d_open f = (f', Ret t) ->
    session bsz (h ++ [EvFlush]) t.
