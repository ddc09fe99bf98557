(** How long queued calls wait for their answers: C126. *)
From Verif Require Import Base Worker SpecWorker WorkerFacts WorkerTime SpecWorkerTime WorkerTimeFacts.

(** * C126 *)

(** The worker waits once for every call it answers: when it has answered all it has
    taken, [k] more answers take at least [k] waits, however fast everything else is. *)
Theorem C126_a_wait_for_every_call : forall tr s tr2 s2,
  texec any_time fresh_timed tr s -> idle tr ->
  texec any_time s tr2 s2 -> EvCancel ∉ tr ++ tr2 ->
  t_now s + one_wait * Z.of_nat (length (replied tr2)) <= t_now s2.
Proof.
  intros tr s tr2 s2 H Hi H2 Hc.
  eapply paid_time; [by eapply paid_exec|].
  eapply wake_bound. by eapply timed_trans.
Qed.

(** [n] calls put in the queue of a started namespace. *)
Fixpoint some_calls (n : nat) : list caller :=
  match n with O => [] | S k => some_calls k ++ [CWaiting (GetProfile 7)] end.
Fixpoint some_actions (n : nat) : list action :=
  match n with O => [] | S k => some_actions k ++ [action_of k (GetProfile 7)] end.
Fixpoint some_events (n : nat) : list event :=
  match n with O => [EvStart] | S k => (some_events k ++ [EvCall k (GetProfile 7)]) ++ [EvSent k] end.
Definition some_state (n : nat) : tstate :=
  TState (WState WSelect (some_actions n) false false (some_calls n) false) 0 0.

Lemma some_calls_length n : length (some_calls n) = n.
Proof. induction n as [|n IH]; [done|]. cbn. rewrite app_length, IH. cbn. lia. Qed.
Lemma some_actions_length n : length (some_actions n) = n.
Proof. induction n as [|n IH]; [done|]. cbn. rewrite app_length, IH. cbn. lia. Qed.

Lemma some_exec n : (n <= 100)%nat ->
  texec any_time fresh_timed (some_events n) (some_state n).
Proof.
  induction n as [|n IH]; intros Hn.
  - change (some_events 0) with ([] ++ [EvStart]). econstructor; [constructor|].
    apply (ts_env _ fresh_timed). apply ws_env; [done|]. apply (es_start fresh_namespace). done.
  - cbn [some_events]. econstructor; [econstructor; [apply IH; lia|]|].
    + apply (ts_env _ (some_state n)). apply ws_env; [done|].
      rewrite <- (some_calls_length n) at 2. apply (es_call (t_w (some_state n))).
    + set (w := set_callers (some_calls n ++ [CSending (GetProfile 7)]) (t_w (some_state n))).
      assert (E : some_calls n ++ [CWaiting (GetProfile 7)] = <[n := CWaiting (GetProfile 7)]> (w_callers w)).
      { cbn. rewrite insert_app_r_alt by (by rewrite some_calls_length).
        by rewrite some_calls_length, Nat.sub_diag. }
      change (some_state (S n)) with
        (TState (set_queue (w_queue w ++ [action_of n (GetProfile 7)])
           (set_callers (some_calls n ++ [CWaiting (GetProfile 7)]) w)) 0 0).
      rewrite E. apply (ts_env _ (TState w 0 0)). apply ws_env; [done|]. apply (es_send w).
      * cbn. rewrite lookup_app_r by (by rewrite some_calls_length).
        by rewrite some_calls_length, Nat.sub_diag.
      * done.
      * cbn. rewrite some_actions_length. unfold queue_capacity. lia.
Qed.

Lemma some_sent n : sent (some_events n) = seq 0 n.
Proof.
  induction n as [|n IH]; [done|]. cbn [some_events]. rewrite !sent_app, IH, seq_S.
  cbn [sent omap list_omap]. by rewrite app_nil_r.
Qed.
Lemma some_idle n : taken (some_events n) = [] /\ replied (some_events n) = [].
Proof.
  induction n as [|n [IH1 IH2]]; [done|]. cbn [some_events].
  rewrite !taken_app, !replied_app, IH1, IH2. done.
Qed.
Lemma some_quiet n : EvCancel ∉ some_events n /\ EvCrash ∉ some_events n /\ EvStart ∈ some_events n.
Proof.
  induction n as [|n (IH1 & IH2 & IH3)]; cbn [some_events].
  - rewrite !elem_of_list_singleton. done.
  - rewrite !elem_of_app, !elem_of_list_singleton. intuition congruence.
Qed.

(** So the wait is not shared, though the comment in the code wants to process as many
    actions as possible at a time: there is no bound below 100 waits on the time the
    calls in the queue need, even when they all are in the queue when the worker
    begins and everything else takes no time. *)
Theorem C126_shared_wait_refuted : forall bound, bound < 100 * one_wait ->
  ~ (forall tr s, texec any_time fresh_timed tr s -> idle tr -> EvStart ∈ tr ->
       EvCancel ∉ tr -> EvCrash ∉ tr ->
       exists tr2 s2, texec any_time s tr2 s2 /\ EvCancel ∉ tr2 /\
         t_now s2 <= t_now s + bound /\ forall i, waiting (t_w s) i -> answered (t_w s2) i).
Proof.
  intros bound Hb Hclaim.
  pose proof (some_exec 100 ltac:(lia)) as H. destruct (some_quiet 100) as (Hc & Hk & Hs).
  destruct (some_idle 100) as [Ht Hr].
  destruct (Hclaim _ _ H ltac:(unfold idle; congruence) Hs Hc Hk) as (tr2 & s2 & H2 & Hc2 & Hle & Ha).
  pose proof (C126_a_wait_for_every_call _ _ _ _ H ltac:(unfold idle; congruence) H2
    ltac:(set_solver)) as Hlow.
  pose proof (timed_trans _ _ _ _ _ _ H H2) as H3.
  destruct (timed_untimed _ _ _ _ H3) as [n Hn]. destruct (exec_inv _ _ _ Hn) as [HC HA].
  destruct (timed_untimed _ _ _ _ H) as [n0 Hn0]. destruct (exec_inv _ _ _ Hn0) as [HC0 HA0].
  assert (Hsub : seq 0 100 ⊆ replied tr2).
  { intros i Hi. assert (Hw : waiting (t_w (some_state 100)) i).
    { assert (Hin : i ∈ map a_caller (hand (w_pc (t_w (some_state 100))) ++ w_queue (t_w (some_state 100)))).
      { pose proof (ai_sent _ _ HA0) as E. rewrite some_sent, Hr in E. cbn [app] in E. by rewrite <- E. }
      apply elem_of_list_fmap in Hin as (a & -> & Hin). destruct (ai_pend _ _ HA0 a Hin) as (c & E & _).
      by exists c. }
    destruct (Ha i Hw) as (c & r & E).
    assert (Hin : (i, r) ∈ replies (some_events 100 ++ tr2)) by (apply (ai_ans _ _ HA); by exists c).
    apply (elem_of_list_fmap_1 fst) in Hin. cbn [fst] in Hin.
    change (i ∈ replied (some_events 100 ++ tr2)) in Hin. by rewrite replied_app, Hr in Hin. }
  assert (Hlen : (length (seq 0 100) <= length (replied tr2))%nat).
  { apply submseteq_length, NoDup_submseteq; [apply NoDup_seq | exact Hsub]. }
  rewrite seq_length in Hlen. unfold one_wait in *. cbn [some_state t_now] in *. lia.
Qed.

(** What holds: the call in place [k] (counted from 0) of the queue of a worker that has
    answered all it has taken has its answer after [k + 1] waits — no earlier, and no
    later if time passes only while the worker has nothing to do. *)
Theorem C126_answer_time_partial : forall tr s before a after tr2 s2,
  texec any_time fresh_timed tr s -> idle tr -> EvStart ∈ tr ->
  w_queue (t_w s) = before ++ a :: after ->
  (texec any_time s tr2 s2 -> EvCancel ∉ tr ++ tr2 -> answered (t_w s2) (a_caller a) ->
     t_now s + one_wait * (Z.of_nat (length before) + 1) <= t_now s2) /\
  (texec no_time_lost s tr2 s2 -> EvCrash ∉ tr ++ tr2 ->
     t_now s + one_wait * (Z.of_nat (length before) + 1) < t_now s2 ->
     answered (t_w s2) (a_caller a)).
Proof.
  intros tr s before a after tr2 s2 H Hi Hst Hq.
  destruct (timed_untimed _ _ _ _ H) as [n0 Hn0]. destruct (exec_inv _ _ _ Hn0) as [HC0 HA0].
  assert (Hh : hand (w_pc (t_w s)) = []).
  { unfold idle in Hi. rewrite (ai_taken _ _ HA0) in Hi.
    rewrite <- (app_nil_r (replied tr)) in Hi at 2. apply app_inv_head in Hi. by apply map_eq_nil in Hi. }
  assert (Hw : waiting (t_w s) (a_caller a)).
  { destruct (ai_pend _ _ HA0 a) as (c & E & _); [rewrite Hq; set_solver|]. by exists c. }
  split.
  - intros H2 Hc (c & r & E).
    pose proof (C126_a_wait_for_every_call _ _ _ _ H Hi H2 Hc) as Hlow.
    pose proof (timed_trans _ _ _ _ _ _ H H2) as H3.
    destruct (timed_untimed _ _ _ _ H3) as [n Hn]. destruct (exec_inv _ _ _ Hn) as [HC HA].
    assert (Hin : a_caller a ∈ replied (tr ++ tr2)).
    { unfold replied. change (a_caller a) with (fst (a_caller a, r)).
      apply elem_of_list_fmap_1. apply (ai_ans _ _ HA). by exists c. }
    assert (Hnd : NoDup (sent (tr ++ tr2))) by apply (ai_nodup _ _ HA).
    pose proof (ai_sent _ _ HA) as Es. rewrite sent_app, replied_app, <- app_assoc in Es.
    rewrite (ai_sent _ _ HA0), Hh, Hq in Es. cbn [app] in Es.
    rewrite <- app_assoc in Es. apply app_inv_head in Es.
    rewrite map_app in Es. cbn [map] in Es. rewrite <- app_assoc in Es.
    assert (Hnot : a_caller a ∉ replied tr).
    { rewrite sent_app, (ai_sent _ _ HA0), Hh, Hq in Hnd. cbn [app] in Hnd.
      apply NoDup_app in Hnd as (Hnd & _ & _). apply NoDup_app in Hnd as (_ & Hd & _).
      intros X. apply (Hd _ X). rewrite map_app. set_solver. }
    assert (Hin2 : a_caller a ∈ replied tr2).
    { rewrite replied_app, elem_of_app in Hin. tauto. }
    (* the answered of [tr2] begin with the callers before [a] *)
    assert (Hlen : (length before + 1 <= length (replied tr2))%nat).
    { destruct (decide (length before + 1 <= length (replied tr2))%nat) as [|Hlt]; [done|exfalso].
      apply (f_equal (take (length (replied tr2)))) in Es.
      rewrite (take_app (replied tr2)) in Es.
      rewrite take_app_le in Es by (rewrite map_length; lia).
      rewrite sent_app, (ai_sent _ _ HA0), Hh, Hq in Hnd. cbn [app] in Hnd.
      apply NoDup_app in Hnd as (Hnd & _ & _). apply NoDup_app in Hnd as (_ & _ & Hnd).
      rewrite map_app in Hnd. apply NoDup_app in Hnd as (_ & Hd & _).
      apply (Hd (a_caller a)); [|cbn; set_solver].
      rewrite <- Es in Hin2. by apply elem_of_take in Hin2 as (j & Hj & _); eapply elem_of_list_lookup_2. }
    unfold one_wait in *. lia.
  - intros H2 Hcr Hlt.
    destruct (deadline_exec _ _ _ _ _ H Hst Hw H2 Hcr) as [Ha|(Hw2 & Hns & Hle)]; [done|exfalso].
    assert (Hpl : place (a_caller a) (w_queue (t_w s)) = S (length before)).
    { rewrite Hq. pose proof (ai_nodup _ _ HA0) as Hnd. rewrite (ai_sent _ _ HA0), Hh, Hq in Hnd.
      cbn [app] in Hnd. apply NoDup_app in Hnd as (_ & _ & Hnd). clear -Hnd.
      induction before as [|b before IH]; cbn.
      - by rewrite decide_True.
      - cbn in Hnd. apply NoDup_cons in Hnd as [Hn Hnd].
        rewrite decide_False; [by rewrite IH|]. intros E. apply Hn. rewrite E, map_app. set_solver. }
    assert (Hd : deadline s (a_caller a) = t_now s + one_wait * (Z.of_nat (length before) + 1)).
    { unfold deadline. rewrite Hpl. destruct (w_pc (t_w s)); try done; unfold one_wait; lia. }
    assert (Hd2 : t_now s2 <= deadline s2 (a_caller a)).
    { unfold deadline, one_wait. destruct (w_pc (t_w s2)); lia. }
    lia.
Qed.

(** Whatever the worker is doing, a call that waits has its answer after one wait more
    than there are calls in the queue, if no time is lost. *)
Theorem C126_longest_wait : forall tr s i tr2 s2,
  texec any_time fresh_timed tr s -> EvStart ∈ tr -> waiting (t_w s) i ->
  texec no_time_lost s tr2 s2 -> EvCrash ∉ tr ++ tr2 ->
  t_now s + one_wait * (Z.of_nat (length (w_queue (t_w s))) + 1) < t_now s2 ->
  answered (t_w s2) i.
Proof.
  intros tr s i tr2 s2 H Hst Hw H2 Hcr Hlt.
  destruct (deadline_exec _ _ _ _ _ H Hst Hw H2 Hcr) as [Ha|(Hw2 & Hns & Hle)]; [done|exfalso].
  pose proof (place_le i (w_queue (t_w s))) as Hp.
  pose proof (wake_bound _ _ _ H) as Hwk.
  assert (t_now s2 <= deadline s2 i).
  { unfold deadline, one_wait. destruct (w_pc (t_w s2)); lia. }
  unfold deadline, one_wait in *. destruct (w_pc (t_w s)); cbn in Hwk; try lia.
Qed.

(** A case: two queued calls, answered at 50 and 100 milliseconds with no time lost. *)
Example C126_case : exists tr1 s1 tr2 s2,
  texec any_time fresh_timed (some_events 2) (some_state 2) /\ idle (some_events 2) /\
  EvStart ∈ some_events 2 /\
  w_queue (t_w (some_state 2)) = [action_of 0 (GetProfile 7)] ++ action_of 1 (GetProfile 7) :: [] /\
  texec no_time_lost (some_state 2) tr1 s1 /\ t_now s1 = 50 /\
  answered (t_w s1) 0 /\ waiting (t_w s1) 1 /\
  texec no_time_lost s1 tr2 s2 /\ t_now s2 = 100 /\ answered (t_w s2) 1 /\
  EvCancel ∉ tr1 ++ tr2 /\ EvCrash ∉ tr1 ++ tr2.
Proof.
  set (a0 := action_of 0 (GetProfile 7)). set (a1 := action_of 1 (GetProfile 7)).
  set (done0 := CAnswered (GetProfile 7) (RProfile None)).
  set (w0 := CWaiting (GetProfile 7)).
  assert (Hwork : forall s tr s' ev w t, texec no_time_lost s tr s' -> w_dead (t_w s') = false ->
    gstep (t_w s') ev w -> awake s' ->
    t = (if is_sleeping (w_pc w) then t_now s' + fill_wait else t_wake s') ->
    texec no_time_lost s (tr ++ ev) (TState w (t_now s') t)).
  { intros s tr s' ev w t H Hd Hg Ha ->. econstructor; [done|]. by apply ts_worker; [constructor|]. }
  assert (Hone : forall s tr a q l l' now wake c,
    texec no_time_lost s tr (TState (WState WSelect (a :: q) false false l false) now wake) ->
    l !! a_caller a = Some (CWaiting c) -> a = action_of (a_caller a) c ->
    l' = <[a_caller a := CAnswered c (expected_reply c)]> l ->
    texec no_time_lost s (tr ++ [EvTaken (a_caller a); EvBatch [a]; EvReply (a_caller a) (expected_reply c)])
      (TState (WState WSelect q false false l' false) (now + 50) (now + 50))).
  { intros s tr a q l l' now wake c H Hl Ea ->.
    assert (H1 : texec no_time_lost s (tr ++ [EvTaken (a_caller a)])
      (TState (WState (WSleep a) q false false l false) now (now + 50))).
    { eapply (Hwork _ _ (TState _ _ _) _ (WState (WSleep a) q false false l false)); [exact H|done|..].
      - by apply (gs_take (WState WSelect (a :: q) false false l false)).
      - done.
      - done. }
    assert (H2 : texec no_time_lost s (tr ++ [EvTaken (a_caller a)])
      (TState (WState (WSleep a) q false false l false) (now + 50) (now + 50))).
    { rewrite <- (app_nil_r (tr ++ _)). econstructor; [exact H1|].
      apply (ts_pass _ (TState _ now (now + 50)) 50); [lia|].
      intros t Ht _ Haw. specialize (Haw eq_refl). cbn in *. lia. }
    assert (H3 : texec no_time_lost s ((tr ++ [EvTaken (a_caller a)]) ++ [])
      (TState (WState (WBatch [a] 1 1) q false false l false) (now + 50) (now + 50))).
    { eapply (Hwork _ _ (TState _ _ _) _ (WState (WBatch [a] 1 1) q false false l false)); [exact H2|done|..].
      - by apply (gs_woke (WState (WSleep a) q false false l false)).
      - intros _. apply Z.le_refl.
      - done. }
    rewrite app_nil_r in H3.
    assert (H4 : texec no_time_lost s ((tr ++ [EvTaken (a_caller a)]) ++ [EvBatch [a]])
      (TState (WState (WProcess [a]) q false false l false) (now + 50) (now + 50))).
    { eapply (Hwork _ _ (TState _ _ _) _ (WState (WProcess [a]) q false false l false)); [exact H3|done|..].
      - apply (gs_process (WState (WBatch [a] 1 1) q false false l false) [a] 1 1); [done|lia].
      - done.
      - done. }
    assert (H5 : texec no_time_lost s
      (((tr ++ [EvTaken (a_caller a)]) ++ [EvBatch [a]]) ++ [EvReply (a_caller a) (expected_reply c)])
      (TState (WState (WProcess []) q false false
         (<[a_caller a := CAnswered c (expected_reply c)]> l) false) (now + 50) (now + 50))).
    { eapply (Hwork _ _ (TState _ _ _) _ (WState (WProcess []) q false false _ false)); [exact H4|done|..].
      - eapply (gs_reply (WState (WProcess [a]) q false false l false) a []
                  (expected_reply c) (set_callers _ (WState (WProcess [a]) q false false l false))).
        + done.
        + rewrite Ea. apply process_reply_expected.
        + apply reply_to_intro; [done|apply receives_expected].
      - done.
      - done. }
    rewrite <- !app_assoc in H5. cbn [app] in H5.
    rewrite <- (app_nil_r (tr ++ _)).
    eapply (Hwork _ _ (TState _ _ _) _ (WState WSelect q false false _ false)); [exact H5|done|..].
    - by apply (gs_processed (WState (WProcess []) q false false _ false)).
    - done.
    - done. }
  eexists _, (TState (WState WSelect [a1] false false [done0; w0] false) 50 50), _,
    (TState (WState WSelect [] false false [done0; done0] false) 100 100).
  split; [apply some_exec; lia|]. split; [done|]. split; [apply some_quiet|]. split; [done|].
  split; [|split; [done|split; [by eexists _, _|split; [by eexists|split; [|split; [done|split; [by eexists _, _|]]]]]]].
  - apply (Hone _ [] a0 [a1] [w0; w0] _ 0 0 (GetProfile 7)); [constructor|done..].
  - apply (Hone _ [] a1 [] [done0; w0] _ 50 50 (GetProfile 7)); [constructor|done..].
  - split; cbn; rewrite !elem_of_cons, elem_of_nil; intuition congruence.
Qed.

Print Assumptions C126_a_wait_for_every_call.
Print Assumptions C126_shared_wait_refuted.
Print Assumptions C126_answer_time_partial.
Print Assumptions C126_longest_wait.
