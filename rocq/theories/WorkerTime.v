(** The namespace worker (Worker.v) with a clock.

    Every step of Worker.v happens at a moment; between steps time passes.  Only
    time.Sleep (internal/domain/likenamespace.go:188) takes a stated time: the worker
    does not wake before it is over.  All the rest takes as long as it takes: any
    amount of time may pass before a step. *)
From Verif Require Import Base Worker.

(** likenamespace.go:50: actionQueueFillWaitTime, in milliseconds *)
Definition fill_wait : Z := 50.

Record tstate := TState {
  t_w : wstate;
  t_now : Z;      (* the clock, in milliseconds *)
  t_wake : Z      (* when the last Sleep is over *)
}.

Definition is_sleeping (p : pc) : bool := match p with WSleep _ => true | _ => false end.

(** likenamespace.go:188: a sleeping worker steps only when the Sleep is over. *)
Definition awake (s : tstate) : Prop :=
  is_sleeping (w_pc (t_w s)) = true -> t_wake s <= t_now s.

(** A step; [passes s d] says whether [d] milliseconds may pass in [s]. *)
Inductive tstep (passes : tstate -> Z -> Prop) : tstate -> list event -> tstate -> Prop :=
| ts_pass s d : 0 <= d -> passes s d ->
    tstep passes s [] (TState (t_w s) (t_now s + d) (t_wake s))
| ts_env s ev w : wstep (t_w s) (false, ev) w ->
    tstep passes s ev (TState w (t_now s) (t_wake s))
| ts_worker s ev w : wstep (t_w s) (true, ev) w -> awake s ->
    tstep passes s ev
      (TState w (t_now s) (if is_sleeping (w_pc w) then t_now s + fill_wait else t_wake s)).

Inductive texec (passes : tstate -> Z -> Prop) : tstate -> list event -> tstate -> Prop :=
| texec_nil s : texec passes s [] s
| texec_snoc s tr s' ev s'' :
    texec passes s tr s' -> tstep passes s' ev s'' -> texec passes s (tr ++ ev) s''.

(** The namespace NewLikeNamespace returns at moment 0. *)
Definition fresh_timed : tstate := TState fresh_namespace 0 0.
