(** Model of Application.Run (internal/api/shard/application.go:52-87) and of what
    runShard does with its result (main.go:14-36), as a labelled transition system of
    the main goroutine, the listener goroutine, the 5 second timer, connections and
    signals.

    net/http is modelled as far as Run sees it: ListenAndServe checks for a shutdown,
    listens, registers the listener (refused during a shutdown) and accepts;
    Shutdown marks the server, closes its listeners, and waits until no registered
    connection is active or the context is done.  An accepted connection is registered
    in a step of its own.  Handlers are not modelled: a connection ends at any time.
    The log output has no effect. *)
From Verif Require Import Base.

(** The main goroutine. *)
Inductive mpc :=
| MStart                  (* line 53 *)
| MNotify                 (* line 71: the listener goroutine runs *)
| MReady                  (* between lines 71 and 72 *)
| MWait                   (* line 72, receiving *)
| MQuit                   (* line 73 *)
| MShutdown               (* line 77, in Shutdown; the timer of line 75 runs *)
| MSelect                 (* line 81 *)
| MReturned (r : option err)  (* Run returned; main.go:33 *)
| MCancel                 (* main.go:16, the deferred cancel *)
| MExited (code : Z)
| MKilled.                (* by the default action of a signal *)

(** The listener goroutine. *)
Inductive lpc :=
| LNone
| LEnter                  (* ListenAndServe was called *)
| LListen                 (* in net.Listen *)
| LRegister               (* listening, not registered yet *)
| LAccept                 (* in Accept *)
| LAccepted               (* a connection was accepted, not registered yet *)
| LSend (r : option err)  (* lines 57, 59: sending on listenError *)
| LDone.

Record app := App {
  a_main : mpc;
  a_lst : lpc;
  a_shut : bool;          (* the server is shutting down *)
  a_timer : bool;         (* ctx.Done() of line 75 is closed *)
  a_conns : nat           (* registered connections *)
}.

Definition fresh_app : app := App MStart LNone false false 0.

Inductive aevent :=
| EvSignal                (* SIGINT or SIGTERM sent to the process *)
| EvDelivered             (* and received on the channel quit *)
| EvListenFailed (e : err)
| EvServerClosed          (* ListenAndServe returned ErrServerClosed *)
| EvTimer
| EvCloseFailed           (* closing the listener failed *)
| EvServing               (* a connection was accepted and registered *)
| EvGone                  (* a registered connection ended *)
| EvReturned (r : option err)
| EvCancelled             (* the namespaces' context *)
| EvExited (code : Z)
| EvKilled.

(** Line 57 *)
Definition listen_error (e : err) : err := EMsg "server listening failed".
(** Line 78 *)
Definition shutdown_error : err := EMsg "server shutdown".
(** Line 83 *)
Definition timeout_error : err := EMsg "shutdown timeout".

Definition at_main (p : mpc) (s : app) : app := App p (a_lst s) (a_shut s) (a_timer s) (a_conns s).
Definition at_lst (p : lpc) (s : app) : app := App (a_main s) p (a_shut s) (a_timer s) (a_conns s).
Definition with_conns (n : nat) (s : app) : app := App (a_main s) (a_lst s) (a_shut s) (a_timer s) n.
Definition shutting (s : app) : app := App (a_main s) (a_lst s) true (a_timer s) (a_conns s).
Definition timed_out (s : app) : app := App (a_main s) (a_lst s) (a_shut s) true (a_conns s).

Definition running (s : app) : bool :=
  match a_main s with MExited _ | MKilled => false | _ => true end.

(** Steps of the main goroutine and of the timer. *)
Inductive pstep : app -> list aevent -> app -> Prop :=
(** lines 53-62 *)
| ps_go s : a_main s = MStart -> pstep s [] (at_lst LEnter (at_main MNotify s))
(** lines 66-71 *)
| ps_notify s : a_main s = MNotify -> pstep s [] (at_main MReady s)
| ps_wait s : a_main s = MReady -> pstep s [] (at_main MWait s)
(** lines 75-77 *)
| ps_shutdown s : a_main s = MQuit -> pstep s [] (shutting (at_main MShutdown s))
| ps_quiet s : a_main s = MShutdown -> a_conns s = 0%nat -> pstep s [] (at_main MSelect s)
| ps_close_failed s : a_main s = MShutdown -> a_conns s = 0%nat ->
    pstep s [EvCloseFailed; EvReturned (Some shutdown_error)] (at_main (MReturned (Some shutdown_error)) s)
| ps_deadline s : a_main s = MShutdown -> a_timer s = true ->
    pstep s [EvReturned (Some shutdown_error)] (at_main (MReturned (Some shutdown_error)) s)
(** lines 81-86 *)
| ps_timeout s : a_main s = MSelect -> a_timer s = true ->
    pstep s [EvReturned (Some timeout_error)] (at_main (MReturned (Some timeout_error)) s)
| ps_receive s r : a_main s = MSelect -> a_lst s = LSend r ->
    pstep s [EvReturned r] (at_lst LDone (at_main (MReturned r) s))
(** main.go:33-34: log.Fatalf exits at once *)
| ps_fatal s e : a_main s = MReturned (Some e) -> pstep s [EvExited 1] (at_main (MExited 1) s)
(** main.go:33, 16 *)
| ps_return s : a_main s = MReturned None -> pstep s [EvCancelled] (at_main MCancel s)
| ps_exit s : a_main s = MCancel -> pstep s [EvExited 0] (at_main (MExited 0) s)
(** line 75 *)
| ps_timer s : a_main s = MShutdown \/ a_main s = MSelect -> a_timer s = false ->
    pstep s [EvTimer] (timed_out s).

(** Steps of the listener goroutine: lines 56-60, ListenAndServe. *)
Inductive lstep : app -> list aevent -> app -> Prop :=
| ls_enter s : a_lst s = LEnter -> a_shut s = false -> lstep s [] (at_lst LListen s)
| ls_enter_closed s : a_lst s = LEnter -> a_shut s = true ->
    lstep s [EvServerClosed] (at_lst (LSend None) s)
| ls_listen s : a_lst s = LListen -> lstep s [] (at_lst LRegister s)
| ls_listen_failed s e : a_lst s = LListen ->
    lstep s [EvListenFailed e] (at_lst (LSend (Some (listen_error e))) s)
| ls_register s : a_lst s = LRegister -> a_shut s = false -> lstep s [] (at_lst LAccept s)
| ls_register_closed s : a_lst s = LRegister -> a_shut s = true ->
    lstep s [EvServerClosed] (at_lst (LSend None) s)
| ls_accept_closed s : a_lst s = LAccept -> a_shut s = true ->
    lstep s [EvServerClosed] (at_lst (LSend None) s)
| ls_accepted s : a_lst s = LAccepted ->
    lstep s [EvServing] (with_conns (S (a_conns s)) (at_lst LAccept s)).

(** Steps of the outside world. *)
Inductive ostep : app -> list aevent -> app -> Prop :=
(** Without Notify a signal ends the process; with it, the signal is handed over
    only if somebody is receiving from the unbuffered channel. *)
| os_kill s : a_main s = MStart \/ a_main s = MNotify -> ostep s [EvSignal; EvKilled] (at_main MKilled s)
| os_deliver s : a_main s = MWait -> ostep s [EvSignal; EvDelivered] (at_main MQuit s)
| os_lost s : a_main s <> MStart -> a_main s <> MNotify -> a_main s <> MWait -> ostep s [EvSignal] s
(** A client connects; Accept fails for good; a connection ends. *)
| os_connect s : a_lst s = LAccept -> a_shut s = false -> ostep s [] (at_lst LAccepted s)
| os_accept_failed s e : a_lst s = LAccept -> a_shut s = false ->
    ostep s [EvListenFailed e] (at_lst (LSend (Some (listen_error e))) s)
| os_disconnect s n : a_conns s = S n -> ostep s [EvGone] (with_conns n s).

(** [true] marks a step of the main goroutine or the timer. *)
Inductive astep : app -> bool * list aevent -> app -> Prop :=
| as_main s tr s' : running s = true -> pstep s tr s' -> astep s (true, tr) s'
| as_listener s tr s' : running s = true -> lstep s tr s' -> astep s (false, tr) s'
| as_outside s tr s' : running s = true -> ostep s tr s' -> astep s (false, tr) s'.

(** An execution: its trace, and the number of marked steps in it. *)
Inductive aexec : app -> list aevent -> nat -> app -> Prop :=
| aexec_nil s : aexec s [] 0 s
| aexec_snoc s tr n s' b ev s'' :
    aexec s tr n s' -> astep s' (b, ev) s'' ->
    aexec s (tr ++ ev) (n + if b : bool then 1 else 0) s''.
