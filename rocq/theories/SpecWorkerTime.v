(** Vocabulary for the time calls take. *)
From Verif Require Import Base Worker SpecWorker WorkerTime.

(** Any amount of time may pass before a step. *)
Definition any_time (s : tstate) (d : Z) : Prop := True.

(** No time is lost: time passes only while the worker has nothing to do. *)
Definition no_time_lost (s : tstate) (d : Z) : Prop :=
  forall t, t_now s <= t < t_now s + d ->
    worker_can_step (t_w s) -> ~ awake (TState (t_w s) t (t_wake s)).

(** The worker has answered all it has taken. *)
Definition idle (tr : list event) : Prop := taken tr = replied tr.

(** Milliseconds of one wait of the worker. *)
Definition one_wait : Z := 50.
