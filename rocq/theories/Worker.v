(** Model of the namespace worker: the goroutine started by likeNamespace.Start
    (internal/domain/likenamespace.go:171-203), its callers (231-310), Stop, and
    likeStorage.ProcessActions (internal/infra/recdb/likestorage.go:24-56), the
    only LikeStorage of the repository.

    It is a labelled transition system: any number of callers, one worker, Stop and
    cancellation interleave in any order.  Every call makes new reply channels, so a
    channel is named by its caller.  A caller goes from sending its action straight
    to receiving the reply, so a reply on an unbuffered channel is one joint step of
    worker and caller.  Go's direct hand-over from a sender to a waiting receiver is
    a send followed by a receive.  time.Sleep is a step. *)
From Verif Require Import Base Arrays Profile.

(** ** Actions: internal/domain/actions.go *)

(** actions.go:5-14 *)
Definition ActionStop : Z := 0.
Definition ActionDeleteProfile : Z := 1.
Definition ActionGetProfile : Z := 2.
Definition ActionLike : Z := 3.
Definition ActionDislike : Z := 4.
Definition ActionDeleteItem : Z := 5.
Definition ActionGetSimilarProfiles : Z := 6.
Definition ActionRecommendItems : Z := 7.

(** actions.go:22-47.  DislikePayload and DeleteItemPayload are LikePayload. *)
Inductive payload :=
| DeleteProfilePayload (user : Z)
| GetProfilePayload (user : Z)
| LikePayload (user item : Z)
| GetSimilarProfilesPayload (user : Z)
| RecommendItemsPayload (user : Z).

(** actions.go:16-20, with the caller whose channels Error and the payload's reply
    channel are. *)
Record action := Action { a_type : Z; a_caller : nat; a_payload : payload }.

(** The exported methods that go through the queue. *)
Inductive call :=
| DeleteProfile (user : Z)
| GetProfile (user : Z)
| Like (user item : Z)
| Dislike (user item : Z)
| DeleteItem (user item : Z)
| GetSimilarProfiles (user : Z)
| RecommendItems (user : Z).

(** The action a call sends: likenamespace.go:235, 244-248, 260, 267, 274,
    282-286, 299-303. *)
Definition action_of (id : nat) (c : call) : action :=
  match c with
  | DeleteProfile u => Action ActionDeleteProfile id (DeleteProfilePayload u)
  | GetProfile u => Action ActionGetProfile id (GetProfilePayload u)
  | Like u i => Action ActionLike id (LikePayload u i)
  | Dislike u i => Action ActionDislike id (LikePayload u i)
  | DeleteItem u i => Action ActionDeleteItem id (LikePayload u i)
  | GetSimilarProfiles u => Action ActionGetSimilarProfiles id (GetSimilarProfilesPayload u)
  | RecommendItems u => Action ActionRecommendItems id (RecommendItemsPayload u)
  end.

(** A reply: an error (nil or not) on the Error channel, or a value on the
    payload's channel.  The similarity and relevance figures that go with profiles
    and items are left out. *)
Inductive reply :=
| RError (e : option err)
| RProfile (p : option profile)      (* [None] is nil *)
| RProfiles (l : list profile)
| RItems (l : list Z).

(** Does the caller receive from the channel this reply is sent on?  The calls
    with a value select over both channels (likenamespace.go:249, 287, 304). *)
Definition receives (c : call) (r : reply) : bool :=
  match r, c with
  | RError _, _ => true
  | RProfile _, GetProfile _ => true
  | RProfiles _, GetSimilarProfiles _ => true
  | RItems _, RecommendItems _ => true
  | _, _ => false
  end.

(** recdb/likestorage.go:26-53: the reply ProcessActions sends for an action; a
    failing type assertion panics. *)
Definition process_reply (a : action) : outcome reply :=
  let t := a_type a in
  if t =? ActionDeleteProfile then Ret (RError None)
  else if t =? ActionGetProfile then
    match a_payload a with GetProfilePayload _ => Ret (RProfile None) | _ => Panic end
  else if t =? ActionLike then Ret (RError None)
  else if t =? ActionDislike then Ret (RError None)
  else if t =? ActionDeleteItem then Ret (RError None)
  else if t =? ActionGetSimilarProfiles then
    match a_payload a with GetSimilarProfilesPayload _ => Ret (RProfiles []) | _ => Panic end
  else if t =? ActionRecommendItems then
    match a_payload a with RecommendItemsPayload _ => Ret (RItems []) | _ => Panic end
  else Ret (RError (Some (EMsg "unknown action"))).

(** likenamespace.go:220, 226 *)
Definition stopped_reply : reply := RError (Some (EMsg "the namespace stopped")).

(** ** State *)

Inductive storage := IndexStorage | DeltaStorage | LikeStorage.

(** The worker's position. *)
Inductive pc :=
| WNotStarted
| WSelect                                   (* line 177 *)
| WSleep (a : action)                       (* line 188 *)
| WBatch (acts : list action) (n i : nat)   (* line 193: [n] = len(actions), the first
                                               [length acts] are filled *)
| WProcess (acts : list action)             (* in ProcessActions, these remain *)
| WDrain (taken : list (option action))     (* line 216; [None] is a zero Action, whose
                                               Error channel is nil *)
| WDrainSend (a : action) (taken : list (option action))  (* line 220 *)
| WDrainTaken (taken : list (option action))  (* line 225, these remain *)
| WDefer (l : list storage)                 (* deferred calls that remain *)
| WEnded.

Inductive caller :=
| CSending (c : call)      (* at [ns.action <- ...] *)
| CWaiting (c : call)      (* sent, receiving the reply *)
| CAnswered (c : call) (r : reply).

Record wstate := WState {
  w_pc : pc;
  w_queue : list action;   (* the buffered channel ns.action *)
  w_closed : bool;         (* ns.action is closed *)
  w_cancelled : bool;      (* ctx.Done() is closed *)
  w_callers : list caller;
  w_dead : bool            (* a goroutine panicked: the process is gone *)
}.

(** likenamespace.go:51, the capacity of the channel *)
Definition queue_capacity : nat := 100.

(** likenamespace.go:190: make([]Action, 1, len(ns.action)+1) has length 1. *)
Definition batch_length (queue : list action) : nat := 1.

(** The namespace NewLikeNamespace returns. *)
Definition fresh_namespace : wstate := WState WNotStarted [] false false [] false.

(** ** Steps *)

Inductive event :=
| EvCall (id : nat) (c : call)
| EvSent (id : nat)
| EvTaken (id : nat)
| EvBatch (acts : list action)
| EvReply (id : nat) (r : reply)
| EvClosed (st : storage)
| EvStart
| EvStop
| EvCancel
| EvEnd
| EvCrash.

Definition set_pc (p : pc) (s : wstate) : wstate :=
  WState p (w_queue s) (w_closed s) (w_cancelled s) (w_callers s) (w_dead s).
Definition set_queue (q : list action) (s : wstate) : wstate :=
  WState (w_pc s) q (w_closed s) (w_cancelled s) (w_callers s) (w_dead s).
Definition set_callers (l : list caller) (s : wstate) : wstate :=
  WState (w_pc s) (w_queue s) (w_closed s) (w_cancelled s) l (w_dead s).
Definition set_closed (s : wstate) : wstate :=
  WState (w_pc s) (w_queue s) true (w_cancelled s) (w_callers s) (w_dead s).
Definition set_cancelled (s : wstate) : wstate :=
  WState (w_pc s) (w_queue s) (w_closed s) true (w_callers s) (w_dead s).
Definition crash (s : wstate) : wstate :=
  WState (w_pc s) (w_queue s) (w_closed s) (w_cancelled s) (w_callers s) true.

(** Steps of the callers and of whoever starts, stops or cancels. *)
Inductive estep : wstate -> list event -> wstate -> Prop :=
(** A goroutine calls a method. *)
| es_call s c :
    estep s [EvCall (length (w_callers s)) c] (set_callers (w_callers s ++ [CSending c]) s)
(** Its action enters the buffered channel, if there is room. *)
| es_send s i c :
    w_callers s !! i = Some (CSending c) -> w_closed s = false ->
    (length (w_queue s) < queue_capacity)%nat ->
    estep s [EvSent i]
      (set_queue (w_queue s ++ [action_of i c]) (set_callers (<[i := CWaiting c]> (w_callers s)) s))
(** Sending on a closed channel panics. *)
| es_send_closed s i c :
    w_callers s !! i = Some (CSending c) -> w_closed s = true ->
    estep s [EvCrash] (crash s)
(** likenamespace.go:208-211 Stop; closing a closed channel panics. *)
| es_stop s : w_closed s = false -> estep s [EvStop] (set_closed s)
| es_stop_again s : w_closed s = true -> estep s [EvCrash] (crash s)
| es_cancel s : estep s [EvCancel] (set_cancelled s)
(** likenamespace.go:155-170: Start opened the storages and runs the goroutine. *)
| es_start s : w_pc s = WNotStarted -> estep s [EvStart] (set_pc WSelect s).

(** Send [r] to the caller of [a], who must be receiving it. *)
Inductive reply_to (a : action) (r : reply) (s : wstate) : wstate -> Prop :=
| reply_to_intro c :
    w_callers s !! a_caller a = Some (CWaiting c) -> receives c r = true ->
    reply_to a r s (set_callers (<[a_caller a := CAnswered c r]> (w_callers s)) s).

(** The slice [actions] of length [n] of which [acts] are filled. *)
Definition batch_slice (acts : list action) (n : nat) : list (option action) :=
  map Some acts ++ replicate (n - length acts) None.

(** Steps of the worker.  Sending on a nil channel blocks forever: there is no step
    for [WDrainTaken (None :: _)]. *)
Inductive gstep : wstate -> list event -> wstate -> Prop :=
(** likenamespace.go:178-180 *)
| gs_done s : w_pc s = WSelect -> w_cancelled s = true -> gstep s [] (set_pc (WDrain []) s)
(** likenamespace.go:181 *)
| gs_take s a q : w_pc s = WSelect -> w_queue s = a :: q ->
    gstep s [EvTaken (a_caller a)] (set_queue q (set_pc (WSleep a) s))
(** likenamespace.go:182-185 *)
| gs_closed s : w_pc s = WSelect -> w_queue s = [] -> w_closed s = true ->
    gstep s [] (set_pc (WDrain []) s)
(** likenamespace.go:188-192 *)
| gs_woke s a : w_pc s = WSleep a ->
    gstep s [] (set_pc (WBatch [a] (batch_length (w_queue s)) 1) s)
(** likenamespace.go:193-199 *)
| gs_batch_take s acts n i a q : w_pc s = WBatch acts n i -> (i < n)%nat -> w_queue s = a :: q ->
    gstep s [EvTaken (a_caller a)]
      (set_queue q (set_pc (if a_type a =? ActionStop then WDrain (batch_slice (acts ++ [a]) n)
                            else WBatch (acts ++ [a]) n (S i)) s))
| gs_batch_closed s acts n i : w_pc s = WBatch acts n i -> (i < n)%nat ->
    w_queue s = [] -> w_closed s = true ->
    gstep s [] (set_pc (WDrain (batch_slice acts n)) s)
(** likenamespace.go:200 *)
| gs_process s acts n i : w_pc s = WBatch acts n i -> ~ (i < n)%nat ->
    gstep s [EvBatch acts] (set_pc (WProcess acts) s)
(** recdb/likestorage.go:25-54 *)
| gs_reply s a acts r s' : w_pc s = WProcess (a :: acts) -> process_reply a = Ret r ->
    reply_to a r s s' ->
    gstep s [EvReply (a_caller a) r] (set_pc (WProcess acts) s')
| gs_reply_panics s a acts : w_pc s = WProcess (a :: acts) -> process_reply a = Panic ->
    gstep s [EvCrash] (crash s)
| gs_processed s : w_pc s = WProcess [] -> gstep s [] (set_pc WSelect s)
(** likenamespace.go:215-219 *)
| gs_drain_take s t a q : w_pc s = WDrain t -> w_queue s = a :: q ->
    gstep s [EvTaken (a_caller a)] (set_queue q (set_pc (WDrainSend a t) s))
| gs_drain_closed s t : w_pc s = WDrain t -> w_queue s = [] -> w_closed s = true ->
    gstep s [] (set_pc (WDrainTaken t) s)
(** likenamespace.go:220 *)
| gs_drain_reply s a t s' : w_pc s = WDrainSend a t -> reply_to a stopped_reply s s' ->
    gstep s [EvReply (a_caller a) stopped_reply] (set_pc (WDrain t) s')
(** likenamespace.go:224-228 *)
| gs_taken_reply s a t s' : w_pc s = WDrainTaken (Some a :: t) -> reply_to a stopped_reply s s' ->
    gstep s [EvReply (a_caller a) stopped_reply] (set_pc (WDrainTaken t) s')
(** The function returns and its caller too: the deferred calls of lines 172-175
    run last to first (the log line has no effect here). *)
| gs_return s : w_pc s = WDrainTaken [] ->
    gstep s [] (set_pc (WDefer [IndexStorage; DeltaStorage; LikeStorage]) s)
| gs_defer s st l : w_pc s = WDefer (st :: l) -> gstep s [EvClosed st] (set_pc (WDefer l) s)
| gs_end s : w_pc s = WDefer [] -> gstep s [EvEnd] (set_pc WEnded s).

(** One step of the whole process; [true] marks a step of the worker. *)
Inductive wstep : wstate -> bool * list event -> wstate -> Prop :=
| ws_env s tr s' : w_dead s = false -> estep s tr s' -> wstep s (false, tr) s'
| ws_worker s tr s' : w_dead s = false -> gstep s tr s' -> wstep s (true, tr) s'.

(** An execution: its trace, and the number of worker steps in it. *)
Inductive wexec : wstate -> list event -> nat -> wstate -> Prop :=
| wexec_nil s : wexec s [] 0 s
| wexec_snoc s tr n s' b ev s'' :
    wexec s tr n s' -> wstep s' (b, ev) s'' ->
    wexec s (tr ++ ev) (n + if b : bool then 1 else 0) s''.
