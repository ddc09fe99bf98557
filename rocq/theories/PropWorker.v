(** The namespace worker: C52-C56, C69, C71. *)
From Verif Require Import Base Worker SpecWorker WorkerFacts.

(** Building executions for the examples. *)
Lemma exec_env s0 tr n s ev s' :
  wexec s0 tr n s -> w_dead s = false -> estep s ev s' -> wexec s0 (tr ++ ev) n s'.
Proof.
  intros H Hd He. rewrite <- (Nat.add_0_r n). eapply (wexec_snoc _ _ _ _ false); [done|].
  by constructor.
Qed.
Lemma exec_work s0 tr n s ev s' :
  wexec s0 tr n s -> w_dead s = false -> gstep s ev s' -> wexec s0 (tr ++ ev) (S n) s'.
Proof.
  intros H Hd He. rewrite <- Nat.add_1_r. eapply (wexec_snoc _ _ _ _ true); [done|].
  by constructor.
Qed.

(** Two callers are queued; then the namespace is started, answers the first and is
    stopped before taking the second. *)
Definition ex_queued : wstate :=
  WState WSelect [action_of 0 (Like 1 2); action_of 1 (GetProfile 1)] false false
    [CWaiting (Like 1 2); CWaiting (GetProfile 1)] false.
Definition ex_queued_trace : list event :=
  [EvCall 0 (Like 1 2); EvSent 0; EvCall 1 (GetProfile 1); EvSent 1; EvStart].

Lemma ex_queued_exec : wexec fresh_namespace ex_queued_trace 0 ex_queued.
Proof.
  change ex_queued_trace with ((((([] ++ [EvCall 0 (Like 1 2)]) ++ [EvSent 0])
    ++ [EvCall 1 (GetProfile 1)]) ++ [EvSent 1]) ++ [EvStart]).
  eapply exec_env; [eapply exec_env; [eapply exec_env; [eapply exec_env; [eapply exec_env|..]|..]|..]|..].
  - constructor.
  - done.
  - apply es_call.
  - done.
  - eapply es_send; [done..|]. cbn. unfold queue_capacity. lia.
  - done.
  - apply es_call.
  - done.
  - eapply (es_send _ 1); [done..|]. cbn. unfold queue_capacity. lia.
  - done.
  - apply (es_start (WState WNotStarted _ _ _ _ _)). done.
Qed.

Definition ex_stopped : wstate :=
  WState (WDrain []) [] true true
    [CAnswered (Like 1 2) (RError None); CAnswered (GetProfile 1) refusal] false.
Definition ex_stopped_trace : list event :=
  ex_queued_trace ++ [EvTaken 0; EvBatch [action_of 0 (Like 1 2)]; EvReply 0 (RError None); EvCancel; EvStop;
                      EvTaken 1; EvReply 1 refusal].

Lemma ex_stopped_exec : exists n, wexec fresh_namespace ex_stopped_trace n ex_stopped.
Proof.
  eexists. unfold ex_stopped_trace.
  change [EvTaken 0; EvBatch [action_of 0 (Like 1 2)]; EvReply 0 (RError None); EvCancel; EvStop;
          EvTaken 1; EvReply 1 refusal]
    with ([EvTaken 0] ++ [] ++ [EvBatch [action_of 0 (Like 1 2)]] ++ [EvReply 0 (RError None)] ++ [] ++
          [EvCancel] ++ [EvStop] ++ [] ++ [EvTaken 1] ++ [EvReply 1 refusal]).
  rewrite !app_assoc.
  eapply exec_work; [eapply exec_work; [eapply exec_work; [eapply exec_env; [eapply exec_env;
    [eapply exec_work; [eapply exec_work; [eapply exec_work; [eapply exec_work; [eapply exec_work;
    [apply ex_queued_exec|..]|..]|..]|..]|..]|..]|..]|..]|..]|..].
  - done.
  - by eapply (gs_take _ (action_of 0 (Like 1 2))).
  - done.
  - by eapply gs_woke.
  - done.
  - eapply (gs_process _ [action_of 0 (Like 1 2)]); [done|]. unfold batch_length. lia.
  - done.
  - eapply (gs_reply _ (action_of 0 (Like 1 2))); [done..|]. by econstructor.
  - done.
  - by eapply gs_processed.
  - done.
  - apply es_cancel.
  - done.
  - by apply es_stop.
  - done.
  - by apply gs_done.
  - done.
  - by eapply (gs_drain_take _ _ (action_of 1 (GetProfile 1))).
  - done.
  - match goal with |- gstep ?s _ _ =>
      exact (gs_drain_reply s (action_of 1 (GetProfile 1)) [] _ eq_refl
        (reply_to_intro (action_of 1 (GetProfile 1)) stopped_reply s (GetProfile 1) eq_refl eq_refl)) end.
Qed.

(** * C52 *)

(** Replies follow the order of the queue, and nobody gets two; each is the call's own
    reply, or a refusal after a cancellation (Stop alone refuses nothing); a call that entered the queue is
    either answered or still waiting. *)
Theorem C52_answered_once_in_order : forall tr n s, wexec fresh_namespace tr n s ->
  NoDup (replied tr) /\ replied tr `prefix_of` taken tr /\ taken tr `prefix_of` sent tr /\
  (forall i c r, EvCall i c ∈ tr -> (i, r) ∈ replies tr ->
     r = expected_reply c \/ (r = refusal /\ EvCancel ∈ tr)) /\
  (forall i, i ∈ sent tr -> i ∈ replied tr /\ answered s i \/ i ∉ replied tr /\ waiting s i).
Proof.
  intros tr n s H. destruct (exec_inv _ _ _ H) as [HC HA].
  pose proof (ai_sent _ _ HA) as Hs. pose proof (ai_taken _ _ HA) as Ht.
  assert (Hnd : NoDup (replied tr)).
  { pose proof (ai_nodup _ _ HA) as Hn. rewrite Hs in Hn. by apply NoDup_app in Hn as (? & _). }
  assert (Hrep : forall i, i ∈ replied tr <-> answered s i).
  { intros i. unfold replied, answered. rewrite elem_of_list_fmap. split.
    - intros ([j r] & -> & Hj). apply (ai_ans _ _ HA) in Hj as [c Hc]. by exists c, r.
    - intros (c & r & Hc). exists (i, r). split; [done|]. apply (ai_ans _ _ HA). by exists c. }
  split; [done|]. split; [rewrite Ht; by apply prefix_app_r|].
  split; [rewrite Ht, Hs, map_app, app_assoc; by apply prefix_app_r|]. split.
  - intros i c r Hc Hr. apply (exec_calls _ _ _ H) in Hc as (x & Hx & Ex).
    pose proof Hr as Hr'. apply (ai_ans _ _ HA) in Hr' as [c' Hc'].
    rewrite Hx in Hc'. injection Hc' as ->. cbn in Ex. subst c'.
    destruct (ai_fit _ _ HA _ _ _ Hx) as [-> | ->]; [by left|]. right. split; [done|].
    destruct (exec_refusals _ _ _ H) as (_ & _ & Hf). by eapply Hf.
  - intros i Hi. rewrite Hs, elem_of_app in Hi. destruct Hi as [Hi|Hi].
    + left. split; [done|]. by apply Hrep.
    + right. apply elem_of_list_fmap in Hi as (a & -> & Ha).
      destruct (ai_pend _ _ HA _ Ha) as (c & Hc & _). split; [|by exists c].
      rewrite Hrep. intros (c' & r & Hc'). congruence.
Qed.
Print Assumptions C52_answered_once_in_order.

Example C52_case :
  (exists n, wexec fresh_namespace ex_stopped_trace n ex_stopped) /\
  replies ex_stopped_trace = [(0%nat, RError None); (1%nat, refusal)].
Proof. split; [apply ex_stopped_exec | reflexivity]. Qed.

(** * C53 *)

(** While a caller waits the worker is not blocked, and the caller has the reply
    after at most 5 * (queue length + 1) <= 505 worker steps. *)
Theorem C53_waiting_is_bounded : forall tr n s i, wexec fresh_namespace tr n s ->
  EvStart ∈ tr -> waiting s i ->
  (EvCrash ∉ tr -> worker_can_step s) /\
  (length (w_queue s) <= 100)%nat /\
  (forall tr2 k s2, wexec s tr2 k s2 -> (5 * (length (w_queue s) + 1) <= k)%nat -> answered s2 i).
Proof.
  intros tr n s i H Hst Hw. destruct (exec_inv _ _ _ H) as [HC HA].
  assert (Hns : w_pc s <> WNotStarted) by (intros E; by apply (ci_start _ _ HC) in E).
  pose proof Hw as [c Hc]. pose proof (ai_wait _ _ HA _ _ Hc) as Hin. split; [|split].
  - intros Hd. eapply progress; try done.
    + destruct (w_dead s) eqn:E; [|done]. by apply (ci_dead _ _ HC) in E.
    + intros E. pose proof (ci_pc _ _ HC) as Hpc. unfold pc_inv in Hpc. rewrite E in Hpc.
      rewrite E, (proj1 Hpc) in Hin. by apply elem_of_nil in Hin.
    + intros E Eq. rewrite E, Eq in Hin. by apply elem_of_nil in Hin.
    + intros t E Eq. rewrite E, Eq in Hin. by apply elem_of_nil in Hin.
  - apply (ai_room _ _ HA).
  - intros tr2 k s2 H2 Hk.
    destruct (delay_exec _ _ _ _ _ _ _ H Hns Hw H2) as [Ha|(Hw2 & _ & Hle)]; [done|].
    exfalso. pose proof (delay_bound _ _ i HC).
    destruct (exec_inv _ _ _ (wexec_trans _ _ _ _ _ _ _ H H2)) as [HC2 HA2].
    pose proof (waiting_delay _ _ i HC2 HA2 Hw2). lia.
Qed.
Print Assumptions C53_waiting_is_bounded.

Example C53_case : EvStart ∈ ex_queued_trace /\ waiting ex_queued 1 /\
  wexec fresh_namespace ex_queued_trace 0 ex_queued.
Proof. split; [set_solver|]. split; [by exists (GetProfile 1) | apply ex_queued_exec]. Qed.

(** * C54 *)

(** After Stop the worker runs until it has ended, which takes at most
    5 * queue length + 11 of its steps. *)
Theorem C54_stop_ends_the_worker : forall tr n s, wexec fresh_namespace tr n s ->
  EvStart ∈ tr -> EvStop ∈ tr ->
  (EvCrash ∉ tr -> ended s \/ worker_can_step s) /\
  (forall tr2 k s2, wexec s tr2 k s2 -> (5 * length (w_queue s) + 11 <= k)%nat -> ended s2).
Proof.
  intros tr n s H Hst Hsp. destruct (exec_inv _ _ _ H) as [HC HA].
  assert (Hns : w_pc s <> WNotStarted) by (intros E; by apply (ci_start _ _ HC) in E).
  assert (Hcl : w_closed s = true) by (by apply (ci_stop _ _ HC)). split.
  - intros Hd. assert (Hx : w_pc s = WEnded \/ w_pc s <> WEnded)
      by (destruct (w_pc s); first [by left | by right]).
    destruct Hx as [Hx|Hx]; [by left|]. right. eapply progress; try done.
    + destruct (w_dead s) eqn:Ed; [by apply (ci_dead _ _ HC) in Ed|done].
    + intros _ _. congruence.
  - intros tr2 k s2 H2 Hk. destruct (lifetime_exec _ _ _ _ _ _ H Hns Hcl H2) as (Hns2 & _ & Hle).
    pose proof (lifetime_bound _ _ HC). assert (E : lifetime s2 = 0%nat) by lia.
    unfold lifetime in E. unfold ended. destruct (w_pc s2); try done; lia.
Qed.
Print Assumptions C54_stop_ends_the_worker.

(** In every execution the storages are closed in the order index, delta, like, none
    twice; all three are closed when the worker has ended. *)
Theorem C54_closed_once_in_order : forall tr n s, wexec fresh_namespace tr n s ->
  storages_closed tr `prefix_of` [IndexStorage; DeltaStorage; LikeStorage] /\
  (ended s -> storages_closed tr = [IndexStorage; DeltaStorage; LikeStorage]).
Proof.
  intros tr n s H. destruct (exec_inv _ _ _ H) as [HC HA].
  pose proof (ci_close _ _ HC) as Hcl. split.
  - rewrite <- Hcl. by apply prefix_app_r.
  - intros E. unfold ended in E. rewrite E in Hcl. cbn in Hcl. by rewrite app_nil_r in Hcl.
Qed.
Print Assumptions C54_closed_once_in_order.

(** Before a storage is closed, every call that ever enters the queue is answered. *)
Theorem C54_answers_come_first : forall t1 st t2 n s,
  wexec fresh_namespace (t1 ++ EvClosed st :: t2) n s ->
  EvStop ∈ t1 /\ replied t1 = sent (t1 ++ EvClosed st :: t2).
Proof.
  intros t1 st t2 n s H. apply exec_split in H as (n1 & s1 & b & s2 & n2 & H1 & Hs & H2).
  destruct (exec_inv _ _ _ H1) as [HC HA].
  inversion Hs as [? ? ? _ He | ? ? ? _ Hg]; subst; [inversion He|].
  inversion Hg as [| | | | | | | | | | | | | | |? ? l Hp|]; subst.
  pose proof (ci_pc _ _ HC) as Hpc. unfold pc_inv in Hpc. rewrite Hp in Hpc. destruct Hpc as [Eq Hcl].
  split; [by apply (ci_stop _ _ HC)|].
  destruct (closed_no_sends _ _ _ _ H2) as [_ E]; [done|].
  rewrite sent_app. change (EvClosed st :: t2) with ([EvClosed st] ++ t2).
  rewrite sent_app, E. cbn. rewrite app_nil_r.
  rewrite (ai_sent _ _ HA), Hp, Eq. cbn. by rewrite app_nil_r.
Qed.
Print Assumptions C54_answers_come_first.

(** From when the first storage is closed the worker takes no action and hands none to
    the storages. *)
Theorem C54_unused_after_close : forall t1 st t2 n s,
  wexec fresh_namespace (t1 ++ EvClosed st :: t2) n s -> taken t2 = [] /\ batches t2 = [].
Proof.
  intros t1 st t2 n s H. apply exec_split in H as (n1 & s1 & b & s2 & n2 & H1 & Hs & H2).
  assert (Hd : closing_pc (w_pc s2)).
  { inversion Hs as [? ? ? _ He | ? ? ? _ Hg]; subst; [inversion He|]. by inversion Hg. }
  clear Hs H1. induction H2 as [|s tr k s' b' ev s'' He IH Hst]; [done|].
  pose proof (closing_stays _ _ _ _ He Hd) as Hd'. destruct (IH Hd) as [E1 E2].
  rewrite taken_app, batches_app, E1, E2.
  inversion Hst as [? ? ? _ Hev | ? ? ? _ Hg]; subst.
  - by destruct Hev.
  - destruct Hg; try done; match goal with E : w_pc _ = _ |- _ => by rewrite E in Hd' end.
Qed.
Print Assumptions C54_unused_after_close.

(** A case: from the stopped state above the worker runs to its end. *)
Example C54_case : exists n s, ended s /\
  wexec fresh_namespace (ex_stopped_trace ++ [EvClosed IndexStorage; EvClosed DeltaStorage;
    EvClosed LikeStorage; EvEnd]) n s.
Proof.
  destruct ex_stopped_exec as [n H]. eexists _, _. split; [|
  change [EvClosed IndexStorage; EvClosed DeltaStorage; EvClosed LikeStorage; EvEnd]
    with ([] ++ [] ++ [EvClosed IndexStorage] ++ [EvClosed DeltaStorage] ++ [EvClosed LikeStorage]
          ++ [EvEnd]); rewrite !app_assoc;
  eapply exec_work; [eapply exec_work; [eapply exec_work; [eapply exec_work; [eapply exec_work;
    [eapply exec_work; [exact H|..]|..]|..]|..]|..]|..]].
  2: done. 2: by eapply gs_drain_closed. 2: done. 2: by eapply gs_return.
  2: done. 2: by eapply gs_defer. 2: done. 2: by eapply gs_defer. 2: done. 2: by eapply gs_defer.
  2: done. 2: by eapply gs_end. done.
Qed.

(** * C55 *)

(** Without Stop no storage is ever closed and the worker never ends. *)
Theorem C55_never_without_stop : forall tr n s, wexec fresh_namespace tr n s ->
  EvStop ∉ tr -> storages_closed tr = [] /\ ~ ended s.
Proof.
  intros tr n s H Hn. destruct (exec_inv _ _ _ H) as [HC HA].
  pose proof (ci_pc _ _ HC) as Hpc. unfold pc_inv in Hpc. pose proof (ci_close _ _ HC) as Hcl.
  assert (Hc : w_closed s = false).
  { destruct (w_closed s) eqn:E; [|done]. by apply (ci_stop _ _ HC) in E. }
  assert (Hp : unclosed (w_pc s) = [IndexStorage; DeltaStorage; LikeStorage] /\ ~ ended s).
  { unfold ended. destruct (w_pc s); try done; destruct Hpc as [_ ?]; congruence. }
  destruct Hp as [Hp He]. split; [|done]. rewrite Hp in Hcl.
  by apply (app_inv_tail [IndexStorage; DeltaStorage; LikeStorage] _ []).
Qed.
Print Assumptions C55_never_without_stop.

(** So cancelling does not lead to the end, whatever happens next. *)
Theorem C55_cancel_closes_refuted :
  ~ (forall tr n s, wexec fresh_namespace tr n s -> EvStart ∈ tr -> EvCancel ∈ tr ->
       EvStop ∉ tr -> EvCrash ∉ tr ->
       exists tr2 k s2, wexec s tr2 k s2 /\ EvStop ∉ tr2 /\ ended s2).
Proof.
  intros H.
  assert (He : wexec fresh_namespace (([] ++ [EvStart]) ++ [EvCancel]) 0
                 (set_cancelled (set_pc WSelect fresh_namespace))).
  { eapply exec_env; [eapply exec_env; [constructor|done|by apply es_start]|done|apply es_cancel]. }
  destruct (H _ _ _ He) as (tr2 & k & s2 & H2 & Hn & E); try set_solver.
  pose proof (wexec_trans _ _ _ _ _ _ _ He H2) as H3.
  apply C55_never_without_stop in H3; [by apply H3|]. set_solver.
Qed.
Print Assumptions C55_cancel_closes_refuted.

(** What holds: waiting calls are answered (C53 does not depend on cancellation), and
    from when the worker noticed it answers only with the error. *)
Theorem C55_calls_refused_partial : forall tr n s i, wexec fresh_namespace tr n s ->
  EvStart ∈ tr -> EvCancel ∈ tr -> EvCrash ∉ tr -> waiting s i ->
  worker_can_step s /\
  (forall tr2 k s2, wexec s tr2 k s2 -> (5 * (length (w_queue s) + 1) <= k)%nat ->
     answered s2 i) /\
  ((exists t, w_pc s = WDrain t) ->
   forall tr2 k s2 j r, wexec s tr2 k s2 -> (j, r) ∈ replies tr2 -> r = refusal).
Proof.
  intros tr n s i H Hst Hca Hcr Hw.
  destruct (C53_waiting_is_bounded _ _ _ _ H Hst Hw) as (H1 & _ & H2).
  split; [auto|]. split; [done|].
  intros [t E] tr2 k s2 j r He Hj. eapply (draining_refuses _ _ _ _ He); [by rewrite E|done].
Qed.
Print Assumptions C55_calls_refused_partial.

(** A case: both calls wait when the context is cancelled and the worker notices. *)
Example C55_case : exists tr n s, wexec fresh_namespace tr n s /\
  EvStart ∈ tr /\ EvCancel ∈ tr /\ EvCrash ∉ tr /\ w_pc s = WDrain [] /\ waiting s 0 /\ waiting s 1.
Proof.
  exists ((ex_queued_trace ++ [EvCancel]) ++ []), 1%nat, (set_pc (WDrain []) (set_cancelled ex_queued)).
  split; [eapply exec_work; [eapply exec_env; [apply ex_queued_exec|done|apply es_cancel]|done|by apply gs_done]|].
  split; [set_solver|]. split; [set_solver|]. split; [set_solver|]. split; [done|].
  split; by eexists.
Qed.

(** * C56 *)

(** Every batch consists of one action. *)
Theorem C56_batches_have_one_action : forall tr n s l, wexec fresh_namespace tr n s ->
  EvBatch l ∈ tr -> length l = 1%nat.
Proof.
  intros tr n s l H Hl. destruct (exec_inv _ _ _ H) as [HC HA].
  pose proof (ci_batch _ _ HC) as Hb. rewrite Forall_forall in Hb. apply Hb.
  apply elem_of_list_omap. by exists (EvBatch l).
Qed.
Print Assumptions C56_batches_have_one_action.

(** So two actions queued when the worker builds the batch do not share it. *)
Theorem C56_one_batch_refuted :
  ~ (forall tr n s ev l s', wexec fresh_namespace tr n s ->
       wexec s ev 2 s' -> (exists a, w_pc s = WSleep a) -> batches ev = [l] ->
       w_queue s ⊆ l).
Proof.
  intros H.
  assert (He : wexec fresh_namespace (ex_queued_trace ++ [EvTaken 0]) 1
    (set_queue [action_of 1 (GetProfile 1)] (set_pc (WSleep (action_of 0 (Like 1 2))) ex_queued))).
  { eapply exec_work; [apply ex_queued_exec|done|by eapply (gs_take _ (action_of 0 (Like 1 2)))]. }
  refine (_ (H _ _ _ (([] ++ []) ++ [EvBatch [action_of 0 (Like 1 2)]]) [action_of 0 (Like 1 2)] _ He _ _ _)).
  - intros Hs. specialize (Hs (action_of 1 (GetProfile 1))). cbn in Hs. set_solver.
  - eapply exec_work; [eapply exec_work; [constructor|done|by eapply gs_woke]|done|].
    eapply (gs_process _ [action_of 0 (Like 1 2)]); [done|]. unfold batch_length. lia.
  - by eexists.
  - done.
Qed.
Print Assumptions C56_one_batch_refuted.

Example C56_case : EvBatch [action_of 0 (Like 1 2)] ∈ ex_stopped_trace.
Proof. set_solver. Qed.

(** * C69 *)

(** CreateNamespace never calls Start (Service.v), so a created namespace is
    [fresh_namespace]; until it is started nobody gets a reply. *)
Theorem C69_not_started_no_replies : forall tr n s, wexec fresh_namespace tr n s ->
  EvStart ∉ tr -> replies tr = [] /\ forall i, ~ answered s i.
Proof.
  intros tr n s H Hn. destruct (exec_inv _ _ _ H) as [HC HA].
  apply (ci_start _ _ HC) in Hn. apply (ai_idle _ _ HA) in Hn.
  assert (E : replies tr = []).
  { unfold replied in Hn. by destruct (replies tr). }
  split; [done|]. intros i (c & r & Hc). assert (Hin : (i, r) ∈ replies tr).
  { apply (ai_ans _ _ HA). by exists c. }
  rewrite E in Hin. by apply elem_of_nil in Hin.
Qed.
Print Assumptions C69_not_started_no_replies.

Theorem C69_created_answers_refuted :
  ~ (forall tr n s i, wexec fresh_namespace tr n s -> EvStart ∉ tr -> waiting s i ->
       exists tr2 k s2, wexec s tr2 k s2 /\ EvStart ∉ tr2 /\ answered s2 i).
Proof.
  intros H.
  assert (He : wexec fresh_namespace (([] ++ [EvCall 0 (Like 1 2)]) ++ [EvSent 0]) 0
    (WState WNotStarted [action_of 0 (Like 1 2)] false false [CWaiting (Like 1 2)] false)).
  { eapply exec_env; [eapply exec_env; [constructor|done|apply es_call]|done|].
    apply (es_send (set_callers [CSending (Like 1 2)] fresh_namespace) 0 (Like 1 2)); [done..|].
    cbn. unfold queue_capacity. lia. }
  destruct (H _ _ _ 0%nat He) as (tr2 & k & s2 & H2 & Hn & Ha); [set_solver|by eexists|].
  pose proof (wexec_trans _ _ _ _ _ _ _ He H2) as H3.
  apply C69_not_started_no_replies in H3 as [_ H3]; [by eapply H3|]. set_solver.
Qed.
Print Assumptions C69_created_answers_refuted.

(** What holds: started (for instance from the saved list, at the next start of the
    process) it answers. *)
Theorem C69_started_answers_partial : forall tr n s i, wexec fresh_namespace tr n s ->
  EvStart ∈ tr -> EvCrash ∉ tr -> waiting s i ->
  worker_can_step s /\
  forall tr2 k s2, wexec s tr2 k s2 -> (505 <= k)%nat -> answered s2 i.
Proof.
  intros tr n s i H Hst Hc Hw.
  destruct (C53_waiting_is_bounded _ _ _ _ H Hst Hw) as (H1 & Hl & H2).
  split; [auto|]. intros tr2 k s2 He Hk. apply (H2 _ _ _ He). lia.
Qed.
Print Assumptions C69_started_answers_partial.

Example C69_case : wexec fresh_namespace ex_queued_trace 0 ex_queued /\
  EvStart ∈ ex_queued_trace /\ EvCrash ∉ ex_queued_trace /\ waiting ex_queued 0.
Proof.
  split; [apply ex_queued_exec|]. split; [set_solver|]. split; [set_solver|]. by exists (Like 1 2).
Qed.

(** * C71 *)

(** After Stop the next call, or a second Stop, takes the process down: the caller's
    only step is the crash. *)
Theorem C71_call_after_stop_crashes : forall tr n s i, wexec fresh_namespace tr n s ->
  EvStop ∈ tr -> EvCrash ∉ tr -> (exists c, w_callers s !! i = Some (CSending c)) ->
  wexec s [EvCrash] 0 (crash s) /\
  forall tr2 k s2, wexec s tr2 k s2 -> ~ waiting s2 i /\ ~ answered s2 i.
Proof.
  intros tr n s i H Hsp Hcr [c Hc]. destruct (exec_inv _ _ _ H) as [HC HA].
  assert (Hcl : w_closed s = true) by (by apply (ci_stop _ _ HC)). split.
  - change [EvCrash] with ([] ++ [EvCrash]). eapply exec_env; [constructor| |].
    + destruct (w_dead s) eqn:E; [|done]. by apply (ci_dead _ _ HC) in E.
    + by eapply es_send_closed.
  - intros tr2 k s2 H2. destruct (closed_no_sends _ _ _ _ H2 Hcl) as [_ E].
    destruct (exec_inv _ _ _ (wexec_trans _ _ _ _ _ _ _ H H2)) as [HC2 HA2].
    pose proof (ai_unsent _ _ HA _ _ Hc) as Hn.
    assert (Hn2 : i ∉ sent (tr ++ tr2)) by (by rewrite sent_app, E, app_nil_r).
    rewrite (ai_sent _ _ HA2), elem_of_app in Hn2. split.
    + intros [c' Hc']. apply Hn2. right. rewrite <- (a_caller_action_of i c').
      apply elem_of_list_fmap_1. by apply (ai_wait _ _ HA2).
    + intros (c' & r & Hc'). apply Hn2. left. unfold replied. apply elem_of_list_fmap.
      exists (i, r). split; [done|]. apply (ai_ans _ _ HA2). by exists c'.
Qed.
Print Assumptions C71_call_after_stop_crashes.

Theorem C71_no_crash_refuted :
  ~ (forall tr n s, wexec fresh_namespace tr n s -> EvCrash ∉ tr).
Proof.
  intros H.
  assert (He : wexec fresh_namespace ((([] ++ [EvStop]) ++ [EvCall 0 (Like 1 2)]) ++ [EvCrash]) 0
    (crash (set_callers [CSending (Like 1 2)] (set_closed fresh_namespace)))).
  { eapply exec_env; [eapply exec_env; [eapply exec_env; [constructor|done|by apply es_stop]|done|
      apply es_call]|done|]. by eapply (es_send_closed _ 0). }
  apply H in He. set_solver.
Qed.
Print Assumptions C71_no_crash_refuted.

(** What holds: nothing else crashes.  The crash follows a Stop, by a second Stop or by
    a call that has not entered the queue. *)
Theorem C71_no_other_crash_partial : forall t1 t2 n s,
  wexec fresh_namespace (t1 ++ EvCrash :: t2) n s ->
  exists n1 s1, wexec fresh_namespace t1 n1 s1 /\ EvStop ∈ t1 /\ t2 = [] /\ s = crash s1.
Proof.
  intros t1 t2 n s H. apply exec_split in H as (n1 & s1 & b & s2 & n2 & H1 & Hs & H2).
  destruct (exec_inv _ _ _ H1) as [HC HA]. exists n1, s1. split; [done|].
  assert (Hx : w_closed s1 = true /\ s2 = crash s1).
  { inversion Hs as [? ? ? _ He | ? ? ? _ Hg]; subst; [by inversion He|].
    inversion Hg; subst. exfalso.
    destruct (hand_caller_waits _ _ a HA) as (c' & _ & Ea); [rewrite H; set_solver|].
    rewrite Ea, process_reply_expected in H0. done. }
  destruct Hx as [Hcl ->]. split; [by apply (ci_stop _ _ HC)|].
  cut (t2 = [] /\ s = crash s1); [done|].
  clear H1 Hs HC HA. remember (crash s1) as s0 eqn:E0. induction H2 as [|? ? ? s' ? ? s'' ? IH Hs]; [done|].
  destruct (IH E0) as [-> E']. exfalso.
  inversion Hs as [? ? ? Hd _ | ? ? ? Hd _]; subst; by cbn in Hd.
Qed.
Print Assumptions C71_no_other_crash_partial.

(** A case: a call is pending when the namespace is stopped. *)
Example C71_case : exists tr n s, wexec fresh_namespace tr n s /\
  EvStop ∈ tr /\ EvCrash ∉ tr /\ w_callers s !! 0%nat = Some (CSending (Like 1 2)).
Proof.
  exists (([] ++ [EvCall 0 (Like 1 2)]) ++ [EvStop]), 0%nat,
    (set_closed (set_callers [CSending (Like 1 2)] fresh_namespace)).
  split; [eapply exec_env; [eapply exec_env; [constructor|done|apply es_call]|done|by apply es_stop]|].
  split; [set_solver|]. split; [set_solver|done].
Qed.
