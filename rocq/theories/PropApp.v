(** Application.Run: C58. *)
From Verif Require Import Base App AppFacts.

(** The process is gone. *)
Definition gone (s : app) : Prop := running s = false.

(** * C58 *)

(** The contract, in two parts.  A failure to listen ends Run, without anybody's
    help, with that error: *)
Definition listen_failure_ends_run : Prop :=
  forall tr n s e, aexec fresh_app tr n s -> EvListenFailed e ∈ tr -> EvSignal ∉ tr ->
  exists tr2 k s2, aexec s tr2 k s2 /\ EvSignal ∉ tr2 /\ EvReturned (Some (listen_error e)) ∈ tr ++ tr2.
(** and a signal ends the process. *)
Definition signal_ends_process : Prop :=
  forall tr n s, aexec fresh_app tr n s -> EvSignal ∈ tr ->
  exists tr2 k s2, aexec s tr2 k s2 /\ EvSignal ∉ tr2 /\ gone s2.

(** Until a signal is received Run does not return, whatever else happens: the
    listener may fail, the process may even be killed. *)
Theorem C58_no_return_without_signal :
  forall tr n s, aexec fresh_app tr n s -> EvDelivered ∉ tr ->
  (forall r, EvReturned r ∉ tr) /\ (forall c, EvExited c ∉ tr) /\ (gone s -> EvSignal ∈ tr).
Proof.
  intros tr n s H Hd. pose proof (exec_inv _ _ _ H) as I.
  assert (Ed : deliveries tr = []).
  { destruct (deliveries tr) eqn:E; [done|]. exfalso. apply Hd, in_deliveries. by rewrite E. }
  pose proof (ai_main _ _ I) as Hm. rewrite Ed in Hm.
  assert (Hr : returns tr = [] /\ (exits tr = [] \/ exits tr = [None]) /\ (gone s -> a_main s = MKilled)).
  { unfold gone, running.
    destruct (a_main s); cbn in Hm;
      first [by destruct Hm as (? & _)|by destruct Hm as (_ & ? & _)|
             destruct Hm as (-> & _ & _ & ->); split; [done|split; [by auto|done]]]. }
  destruct Hr as (Hr & Hx & Hg). split; [|split].
  - intros r Hin. apply in_returns in Hin. rewrite Hr in Hin. by apply elem_of_nil in Hin.
  - intros c Hin. apply in_exits in Hin. destruct Hx as [Hx|Hx]; rewrite Hx in Hin.
    + by apply elem_of_nil in Hin.
    + apply elem_of_list_singleton in Hin. done.
  - intros Hgo. apply (ai_signal _ _ I). right. by apply Hg.
Qed.
Print Assumptions C58_no_return_without_signal.

(** In particular a listener that failed while Run waits leaves nothing to do: the
    only steps left are signals, and connections that end. *)
Theorem C58_stuck_after_listen_failure :
  forall tr n s e, aexec fresh_app tr n s -> EvListenFailed e ∈ tr -> a_main s = MWait ->
  forall b ev s', astep s (b, ev) s' ->
  ev = [EvSignal; EvDelivered] \/ (ev = [EvGone] /\ a_main s' = MWait /\ a_lst s' = a_lst s /\ (a_conns s' < a_conns s)%nat).
Proof.
  intros tr n s e H He Hm b ev s' Hs. pose proof (exec_inv _ _ _ H) as I.
  pose proof (ai_lst _ _ I) as Hl. pose proof (ai_main _ _ I) as Hi. rewrite Hm in Hi. destruct Hi as (Hr & _).
  apply in_listens_failed in He. rewrite Hr in Hl.
  assert (El : exists r, a_lst s = LSend r).
  { destruct (a_lst s); cbn in Hl; try (rewrite Hl in He; by apply elem_of_nil in He); [by eauto|]. by destruct Hl. }
  destruct El as [r El].
  inversion Hs as [? ? ? _ Hp|? ? ? _ Hp|? ? ? _ Hp]; subst; inversion Hp; subst; try congruence.
  - match goal with H : _ \/ _ |- _ => destruct H; congruence end.
  - match goal with H : _ \/ _ |- _ => destruct H; congruence end.
  - by left.
  - right. cbn. split; [done|]. split; [done|]. split; [done|]. lia.
Qed.
Print Assumptions C58_stuck_after_listen_failure.

(** Run has not received a signal yet. *)
Definition before_signal (p : mpc) : bool :=
  match p with MStart | MNotify | MReady | MWait => true | _ => false end.

(** Building executions. *)
Lemma exec_main s0 tr n s ev s' : aexec s0 tr n s -> running s = true -> pstep s ev s' -> aexec s0 (tr ++ ev) (n + 1) s'.
Proof. intros H Hr Hp. eapply (aexec_snoc _ _ _ _ true); [done|by apply as_main]. Qed.
Lemma exec_listener s0 tr n s ev s' : aexec s0 tr n s -> running s = true -> lstep s ev s' -> aexec s0 (tr ++ ev) (n + 0) s'.
Proof. intros H Hr Hp. eapply (aexec_snoc _ _ _ _ false); [done|by apply as_listener]. Qed.
Lemma exec_outside s0 tr n s ev s' : aexec s0 tr n s -> running s = true -> ostep s ev s' -> aexec s0 (tr ++ ev) (n + 0) s'.
Proof. intros H Hr Hp. eapply (aexec_snoc _ _ _ _ false); [done|by apply as_outside]. Qed.

(** The port is taken: Run waits. *)
Lemma ex_port_taken e :
  exists n, aexec fresh_app [EvListenFailed e] n (App MWait (LSend (Some (listen_error e))) false false 0).
Proof.
  eexists. change [EvListenFailed e] with ((((([] ++ []) ++ []) ++ []) ++ []) ++ [EvListenFailed e]).
  eapply exec_listener; [eapply exec_listener; [eapply exec_main; [eapply exec_main; [eapply exec_main; [constructor|..]|..]|..]|..]|..].
  - done.
  - by apply ps_go.
  - done.
  - by apply ps_notify.
  - done.
  - by apply ps_wait.
  - done.
  - by apply ls_enter.
  - done.
  - by apply (ls_listen_failed (App MWait LListen false false 0)).
Qed.

Theorem C58_listen_failure_refuted : ~ listen_failure_ends_run.
Proof.
  intros H. destruct (ex_port_taken EClosed) as [n He].
  destruct (H _ _ _ EClosed He) as (tr2 & k & s2 & H2 & Hn & Hr).
  - apply elem_of_list_here.
  - rewrite elem_of_list_singleton. done.
  - pose proof (exec_trans _ _ _ _ _ _ _ He H2) as Ht. pose proof (exec_inv _ _ _ Ht) as I.
    destruct (C58_no_return_without_signal _ _ _ Ht) as (Hx & _).
    + intros Hd. apply in_deliveries in Hd. pose proof (ai_signal _ _ I (or_introl Hd)) as Hs.
      apply elem_of_app in Hs as [Hs|Hs]; [|done]. by apply elem_of_list_singleton in Hs.
    + by apply (Hx _ Hr).
Qed.
Print Assumptions C58_listen_failure_refuted.

(** A signal between Notify and the receive is lost. *)
Theorem C58_signal_ends_process_refuted : ~ signal_ends_process.
Proof.
  intros H.
  assert (He : exists n, aexec fresh_app [EvSignal] n (App MReady LEnter false false 0)).
  { eexists. change [EvSignal] with ((([] ++ []) ++ []) ++ [EvSignal]).
    eapply exec_outside; [eapply exec_main; [eapply exec_main; [constructor|..]|..]|..].
    - done.
    - by apply ps_go.
    - done.
    - by apply ps_notify.
    - done.
    - by apply os_lost. }
  destruct He as [n He]. destruct (H _ _ _ He) as (tr2 & k & s2 & H2 & Hn & Hg); [apply elem_of_list_here|].
  assert (Hw : before_signal (a_main s2) = true).
  { clear -H2 Hn. remember (App MReady LEnter false false 0) as s0. revert Heqs0 Hn.
    induction H2 as [s|s tr m s' b ev s'' _ IH Hs]; intros E Hn; [by subst|].
    specialize (IH E). destruct s' as [mm l sh t c].
    assert (Hb : before_signal mm = true) by (apply IH; intros ?; apply Hn, elem_of_app; by left).
    assert (Hev : EvSignal ∉ ev) by (intros ?; apply Hn, elem_of_app; by right).
    inversion Hs as [? ? ? _ Hp|? ? ? _ Hp|? ? ? _ Hp]; subst; inversion Hp; subst; cbn in *; subst; try done;
      exfalso; apply Hev, elem_of_list_here. }
  unfold gone, running in Hg. by destruct (a_main s2).
Qed.
Print Assumptions C58_signal_ends_process_refuted.

(** The true part: once a signal has been received the process is gone after at most
    six further steps of the main goroutine and the timer, one of which is always
    possible, whatever the listener, the connections and further signals do. *)
Theorem C58_received_signal_ends_partial :
  forall tr n s, aexec fresh_app tr n s -> EvDelivered ∈ tr ->
  (gone s \/ exists ev s', astep s (true, ev) s') /\
  (forall tr2 k s2, aexec s tr2 k s2 -> (k <= 6)%nat /\ (k = 6%nat -> gone s2)).
Proof.
  intros tr n s H Hd. pose proof (exec_inv _ _ _ H) as I. apply in_deliveries in Hd.
  pose proof (ai_main _ _ I) as Hm.
  assert (Hw : before_signal (a_main s) = false).
  { destruct (a_main s); try done; cbn in Hm; by destruct Hm as (_ & ? & _). }
  split.
  - unfold gone. destruct (running s) eqn:Hr; [right|by left]. apply main_progress; [done|].
    intros E. by rewrite E in Hw.
  - intros tr2 k s2 H2. apply exec_left in H2.
    assert (Hb : (steps_left s <= 6)%nat).
    { unfold steps_left. destruct (a_main s); try done; cbn; destruct (a_timer s); lia. }
    split; [lia|]. intros ->. assert (E : steps_left s2 = 0%nat) by lia.
    unfold gone, running, steps_left in *. destruct (a_main s2); cbn in E; try lia; done.
Qed.
Print Assumptions C58_received_signal_ends_partial.

(** What Run returns, and why; the exit code; when the namespaces are cancelled. *)
Theorem C58_result :
  forall tr n s, aexec fresh_app tr n s ->
  (forall r, EvReturned r ∈ tr ->
     EvDelivered ∈ tr /\
     match r with
     | None => EvServerClosed ∈ tr /\ forall e, EvListenFailed e ∉ tr
     | Some x =>
       (exists e, EvListenFailed e ∈ tr /\ x = listen_error e /\ EvServerClosed ∉ tr) \/
       (x = shutdown_error /\ (EvTimer ∈ tr \/ EvCloseFailed ∈ tr)) \/
       (x = timeout_error /\ EvTimer ∈ tr)
     end) /\
  (forall r r', EvReturned r ∈ tr -> EvReturned r' ∈ tr -> r = r') /\
  (forall c, EvExited c ∈ tr -> (c = 0 /\ EvReturned None ∈ tr) \/ (c = 1 /\ exists e, EvReturned (Some e) ∈ tr)) /\
  (EvCancelled ∈ tr -> EvReturned None ∈ tr).
Proof.
  intros tr n s H. pose proof (exec_inv _ _ _ H) as I. pose proof (ai_main _ _ I) as Hm.
  assert (Hsum : (returns tr = [] /\ cancels tr = [] /\ (forall c, Some c ∉ exits tr)) \/
    exists r, returns tr = [r] /\ deliveries tr <> [] /\ (cancels tr <> [] -> r = None) /\
      forall c, Some c ∈ exits tr -> (c = 0 /\ r = None) \/ (c = 1 /\ exists e, r = Some e)).
  { destruct (a_main s) as [| | | | | | |r| |c|]; cbn in Hm.
    1-7: left; destruct Hm as (-> & _ & -> & ->); split; [done|]; split; [done|]; intros ? Hin; by apply elem_of_nil in Hin.
    - right. exists r. destruct Hm as (-> & -> & -> & ->). split; [done|]. split; [done|]. split; [done|].
      intros ? Hin. by apply elem_of_nil in Hin.
    - right. exists None. destruct Hm as (-> & -> & _ & ->). split; [done|]. split; [done|]. split; [done|].
      intros ? Hin. by apply elem_of_nil in Hin.
    - right. destruct Hm as (-> & -> & [(-> & -> & _) | (-> & -> & e & ->)]).
      + exists None. split; [done|]. split; [done|]. split; [done|]. intros c Hin.
        apply elem_of_list_singleton in Hin. left. by injection Hin as ->.
      + exists (Some e). split; [done|]. split; [done|]. split; [done|]. intros c Hin.
        apply elem_of_list_singleton in Hin. right. injection Hin as ->. eauto.
    - left. destruct Hm as (-> & _ & -> & ->). split; [done|]. split; [done|]. intros ? Hin.
      by apply elem_of_list_singleton in Hin. }
  assert (Hone : forall r, EvReturned r ∈ tr -> returns tr = [r]).
  { intros r Hr. apply in_returns in Hr. destruct Hsum as [(E & _) | (r' & E & _)]; rewrite E in *.
    - by apply elem_of_nil in Hr.
    - apply elem_of_list_singleton in Hr. by subst. }
  split; [|split; [|split]].
  - intros r Hr. pose proof (Hone r Hr) as E.
    destruct Hsum as [(E' & _) | (r' & E' & Hd & _)]; [by rewrite E in E'|].
    split; [by apply in_deliveries|].
    pose proof (ai_cause _ _ I) as Hc. rewrite E in Hc. apply Forall_inv in Hc.
    destruct Hc as [Hl | [(-> & Hc) | (-> & Hc)]].
    + pose proof (ai_lst _ _ I) as Hls. rewrite Hl, E in Hls. destruct Hls as [Hls _].
      destruct (listens_in tr r) as [(-> & Hsc) | (e & He & ->)].
      * rewrite Hls. apply elem_of_list_here.
      * split; [done|]. intros e He. apply in_listens_failed in He. rewrite Hls in He.
        by apply elem_of_list_singleton in He.
      * left. exists e. split; [done|]. split; [done|]. intros Hsc. apply in_listens_closed in Hsc. rewrite Hls in Hsc.
        by apply elem_of_list_singleton in Hsc.
    + right. left. split; [done|]. destruct Hc as [Hc|Hc]; [left|right; by apply in_close_failures].
      by apply in_timers, (ai_timer _ _ I).
    + right. right. split; [done|]. by apply in_timers, (ai_timer _ _ I).
  - intros r r' Hr Hr'. apply Hone in Hr. apply Hone in Hr'. congruence.
  - intros c Hc. apply in_exits in Hc. destruct Hsum as [(_ & _ & Hx) | (r & E & _ & _ & Hx)]; [by apply Hx in Hc|].
    destruct (Hx c Hc) as [(-> & ->) | (-> & e & ->)]; [left|right; split; [done|exists e]];
      try split; try done; apply in_returns; rewrite E; apply elem_of_list_here.
  - intros Hc. apply in_cancels in Hc. destruct Hsum as [(_ & E & _) | (r & E & _ & Hx & _)]; [done|].
    rewrite (Hx Hc) in E. apply in_returns. rewrite E. apply elem_of_list_here.
Qed.
Print Assumptions C58_result.

(** A failure to listen is reported at last: if Run returns in time, with that error. *)
Theorem C58_failure_is_reported :
  forall tr n s e r, aexec fresh_app tr n s -> EvListenFailed e ∈ tr -> EvReturned r ∈ tr ->
  EvTimer ∉ tr -> EvCloseFailed ∉ tr -> r = Some (listen_error e).
Proof.
  intros tr n s e r H He Hr Ht Hc. destruct (C58_result _ _ _ H) as (Hres & _).
  destruct (Hres r Hr) as [_ Hx]. destruct r as [x|]; [|by destruct Hx as [_ Hx]; apply Hx in He].
  destruct Hx as [(e' & He' & -> & _) | [(-> & [?|?]) | (-> & ?)]]; try done.
Qed.
Print Assumptions C58_failure_is_reported.

(** A server that listens, answers a connection and is shut down cleanly. *)
Example C58_clean_case : exists n,
  aexec fresh_app [EvServing; EvSignal; EvDelivered; EvGone; EvSignal; EvServerClosed; EvReturned None; EvCancelled; EvExited 0] n
    (App (MExited 0) LDone true false 0).
Proof.
  eexists.
  change [EvServing; EvSignal; EvDelivered; EvGone; EvSignal; EvServerClosed; EvReturned None; EvCancelled; EvExited 0] with
    ([] ++ [] ++ [] ++ [] ++ [] ++ [] ++ [] ++ [] ++ [EvServing] ++ [EvSignal; EvDelivered] ++ [] ++ [EvGone] ++ [] ++ [EvSignal] ++
     [EvServerClosed] ++ [EvReturned None] ++ [EvCancelled] ++ [EvExited 0]).
  rewrite !app_assoc.
  eapply exec_main; [eapply exec_main; [eapply exec_main; [eapply exec_listener; [eapply exec_outside;
    [eapply exec_main; [eapply exec_outside; [eapply exec_main; [eapply exec_outside;
    [eapply exec_listener; [eapply exec_outside; [eapply exec_listener; [eapply exec_listener; [eapply exec_listener;
    [eapply exec_main; [eapply exec_main; [eapply exec_main; [constructor|..]|..]|..]|..]|..]|..]|..]|..]|..]|..]|..]|..]|..]|..]|..]|..]|..].
  - done.
  - by apply ps_go.
  - done.
  - by apply ps_notify.
  - done.
  - by apply ps_wait.
  - done.
  - by apply ls_enter.
  - done.
  - by apply ls_listen.
  - done.
  - by apply ls_register.
  - done.
  - by apply os_connect.
  - done.
  - by apply ls_accepted.
  - done.
  - by apply os_deliver.
  - done.
  - by apply ps_shutdown.
  - done.
  - by apply (os_disconnect _ 0).
  - done.
  - by apply ps_quiet.
  - done.
  - by apply os_lost.
  - done.
  - by apply ls_accept_closed.
  - done.
  - by apply (ps_receive _ None).
  - done.
  - by apply ps_return.
  - done.
  - by apply ps_exit.
Qed.
