(** C75, C76: what the like storage is handed, and what comes back. *)
From Verif Require Import Base Arrays Profile Worker SpecWorker WorkerFacts PropWorker.

(** ** The batches *)

Local Arguments handed : simpl never.

Lemma handed_app t1 t2 : handed (t1 ++ t2) = handed t1 ++ handed t2.
Proof. unfold handed. by rewrite batches_app, concat_app. Qed.

Definition handed_inv (tr : list event) (p : pc) : Prop :=
  match p with
  | WNotStarted | WSelect | WSleep _ | WBatch _ _ _ => map a_caller (handed tr) = replied tr
  | WProcess acts => map a_caller (handed tr) = replied tr ++ map a_caller acts
  | _ => map a_caller (handed tr) `prefix_of` replied tr
  end.

Lemma handed_step tr n s b ev s' :
  wexec fresh_namespace tr n s -> wstep s (b, ev) s' ->
  handed_inv tr (w_pc s) ->
  Forall (fun a => exists c, a = action_of (a_caller a) c /\ EvCall (a_caller a) c ∈ tr) (handed tr) ->
  (forall i r, (i, r) ∈ replies tr -> r <> refusal -> i ∈ map a_caller (handed tr)) ->
  handed_inv (tr ++ ev) (w_pc s') /\
  Forall (fun a => exists c, a = action_of (a_caller a) c /\ EvCall (a_caller a) c ∈ tr ++ ev)
    (handed (tr ++ ev)) /\
  (forall i r, (i, r) ∈ replies (tr ++ ev) -> r <> refusal -> i ∈ map a_caller (handed (tr ++ ev))).
Proof.
  intros He Hs HI HF HR. destruct (exec_inv _ _ _ He) as [HC HA].
  assert (HF' : Forall (fun a => exists c, a = action_of (a_caller a) c /\
                  EvCall (a_caller a) c ∈ tr ++ ev) (handed tr)).
  { eapply Forall_impl; [exact HF|]. intros a (c & ? & ?). exists c. set_solver. }
  rewrite handed_app.
  assert (Hquiet : handed ev = [] -> replied ev = [] ->
    handed_inv tr (w_pc s') -> handed_inv (tr ++ ev) (w_pc s') /\
    Forall (fun a => exists c, a = action_of (a_caller a) c /\ EvCall (a_caller a) c ∈ tr ++ ev)
      (handed tr ++ handed ev) /\
    (forall i r, (i, r) ∈ replies (tr ++ ev) -> r <> refusal ->
      i ∈ map a_caller (handed tr ++ handed ev))).
  { intros E1 E2 HI'. rewrite E1, app_nil_r. split; [|split; [done|]].
    - destruct (w_pc s'); cbn in *; by rewrite handed_app, replied_app, E1, E2, !app_nil_r.
    - assert (E3 : replies ev = []) by (by apply map_eq_nil in E2).
      intros i r. rewrite replies_app, E3, app_nil_r. apply HR. }
  inversion Hs as [? ? ? Hdd Hev | ? ? ? Hdd Hg]; subst.
  - destruct Hev; try (apply Hquiet; done). apply Hquiet; [done|done|].
    match goal with H : w_pc _ = WNotStarted |- _ => rewrite H in HI end. done.
  - pose proof (ci_pc _ _ HC) as Hpc. unfold pc_inv in Hpc.
    inversion Hg as [s1 P C|s1 a q P Q|s1 P Q C|s1 a P|s1 acts m i a q P L Q|s1 acts m i P L Q C|
        s1 acts m i P L|s1 a acts r s2 P R T|s1 a acts P R|s1 P|s1 t a q P Q|s1 t P Q C|
        s1 a t s2 P T|s1 a t s2 P T|s1 P|s1 st l P|s1 P]; subst; rewrite P in HI, Hpc;
      try lia; try (apply Hquiet; [done|done|cbn in *; first [done | by rewrite HI | by rewrite HI, app_nil_r | (by rewrite P)]]).
    + (* a batch *)
      assert (Eb : handed [EvBatch acts] = acts) by (unfold handed; cbn; by rewrite app_nil_r).
      cbn in HI |- *. rewrite Eb. split; [|split].
      * by rewrite handed_app, map_app, replied_app, HI, Eb, app_nil_r.
      * apply Forall_app. split; [done|]. apply Forall_forall. intros a Ha.
        destruct (hand_caller_waits _ _ a HA) as (c & Hc & Ea); [by rewrite P|].
        exists c. split; [done|]. apply elem_of_app. left.
        apply (exec_calls _ _ _ He). by exists (CWaiting c).
      * intros i0 r. rewrite replies_app, app_nil_r, map_app, elem_of_app. left. by eapply HR.
    + (* a reply of the storage *)
      cbn in HI |- *. change (handed [EvReply (a_caller a) r]) with (@nil action).
      rewrite app_nil_r. split; [|split; [done|]].
      * rewrite handed_app, replied_app. cbn. change (handed [EvReply (a_caller a) r]) with (@nil action).
        by rewrite app_nil_r, HI, <- app_assoc.
      * intros i0 r0. rewrite replies_app, elem_of_app. intros [H|H]; [by eapply HR|].
        cbn in H. apply elem_of_list_singleton in H as [= -> ->]. intros _. rewrite HI. set_solver.
    + (* refusals *)
      cbn in HI |- *. change (handed [EvReply (a_caller a) stopped_reply]) with (@nil action).
      rewrite app_nil_r. split; [|split; [done|]].
      * rewrite handed_app, replied_app.
        change (handed [EvReply (a_caller a) stopped_reply]) with (@nil action). rewrite app_nil_r.
        by apply prefix_app_r.
      * intros i0 r0. rewrite replies_app, elem_of_app. intros [H|H]; [by eapply HR|].
        cbn in H. apply elem_of_list_singleton in H as [= -> ->]. done.
    + cbn in HI |- *. change (handed [EvReply (a_caller a) stopped_reply]) with (@nil action).
      rewrite app_nil_r. split; [|split; [done|]].
      * rewrite handed_app, replied_app.
        change (handed [EvReply (a_caller a) stopped_reply]) with (@nil action). rewrite app_nil_r.
        by apply prefix_app_r.
      * intros i0 r0. rewrite replies_app, elem_of_app. intros [H|H]; [by eapply HR|].
        cbn in H. apply elem_of_list_singleton in H as [= -> ->]. done.
Qed.

Lemma exec_handed tr n s : wexec fresh_namespace tr n s ->
  handed_inv tr (w_pc s) /\
  Forall (fun a => exists c, a = action_of (a_caller a) c /\ EvCall (a_caller a) c ∈ tr) (handed tr) /\
  (forall i r, (i, r) ∈ replies tr -> r <> refusal -> i ∈ map a_caller (handed tr)).
Proof.
  intros H. remember fresh_namespace as s0 eqn:E.
  induction H as [|s0 tr n s b ev s' He IH Hs]; subst.
  { split; [done|]. split; [by constructor|]. intros i r Hi. by apply elem_of_nil in Hi. }
  destruct (IH eq_refl) as (I1 & I2 & I3). by eapply handed_step.
Qed.

(** ** C75 *)

(** Calls reach the storage as they were made, in the order they entered the queue,
    none twice and none skipped; and only a call that reached it is answered with
    anything but the refusal of a stopping namespace. *)
Theorem C75_storage_gets_calls : forall tr n s, wexec fresh_namespace tr n s ->
  map a_caller (handed tr) `prefix_of` sent tr /\
  NoDup (map a_caller (handed tr)) /\
  Forall (fun a => exists c, meant a = Some c /\ EvCall (a_caller a) c ∈ tr) (handed tr) /\
  (forall i r, EvReply i r ∈ tr -> r <> refusal -> i ∈ map a_caller (handed tr)).
Proof.
  intros tr n s H. destruct (exec_inv _ _ _ H) as [HC HA].
  destruct (exec_handed _ _ _ H) as (I1 & I2 & I3).
  assert (Hp : map a_caller (handed tr) `prefix_of` sent tr).
  { rewrite (ai_sent _ _ HA), map_app, app_assoc.
    destruct (w_pc s); cbn in I1 |- *; rewrite ?I1;
      first [ by eapply prefix_app_r | by do 2 eapply prefix_app_r | by eexists ]. }
  split; [done|]. split.
  { pose proof (ai_nodup _ _ HA) as Hn. destruct Hp as [k Ek]. rewrite Ek in Hn.
    by apply NoDup_app in Hn as [? _]. }
  split.
  - eapply Forall_impl; [exact I2|]. intros a (c & -> & Hc). exists c. split; [|done].
    by destruct c.
  - intros i r Hi Hr. apply (I3 i r); [|done]. apply elem_of_list_omap. by exists (EvReply i r).
Qed.
Print Assumptions C75_storage_gets_calls.

Example C75_case : handed ex_stopped_trace = [action_of 0 (Like 1 2)] /\
  sent ex_stopped_trace = [0; 1]%nat.
Proof. done. Qed.

(** ** C76 *)

(** A like that was acknowledged shows in a profile asked for afterwards, as long as
    no other call touched it. *)
Definition likes_are_seen : Prop :=
  forall t1 t2 n s k j u i p,
    wexec fresh_namespace (t1 ++ EvReply k (RError None) :: t2) n s ->
    EvCall k (Like u i) ∈ t1 -> EvCall j (GetProfile u) ∈ t2 ->
    (forall k' c, EvCall k' c ∈ t1 ++ t2 -> writes u i c = true -> k' = k) ->
    EvReply j (RProfile p) ∈ t2 ->
    exists q, p = Some q /\ i ∈ p_likes q.

(** Every value that comes back is empty. *)
Theorem C76_replies_are_empty : forall tr n s i r, wexec fresh_namespace tr n s ->
  EvReply i r ∈ tr ->
  match r with
  | RError _ => True
  | RProfile p => p = None
  | RProfiles l => l = []
  | RItems l => l = []
  end.
Proof.
  intros tr n s i r H Hr. destruct (exec_inv _ _ _ H) as [HC HA].
  assert (Hi : (i, r) ∈ replies tr) by (apply elem_of_list_omap; by exists (EvReply i r)).
  apply (ai_ans _ _ HA) in Hi as (c & Hc).
  destruct (ai_fit _ _ HA _ _ _ Hc) as [-> | ->]; [|done]. by destruct c.
Qed.
Print Assumptions C76_replies_are_empty.

(** An acknowledged like followed by a request for the profile. *)
Definition like_trace : list event :=
  [EvStart; EvCall 0 (Like 1 2); EvSent 0; EvTaken 0; EvBatch [action_of 0 (Like 1 2)]].
Definition asked_trace : list event :=
  [EvCall 1 (GetProfile 1); EvSent 1; EvTaken 1; EvBatch [action_of 1 (GetProfile 1)];
   EvReply 1 (RProfile None)].

Lemma asked_exec : exists n s,
  wexec fresh_namespace (like_trace ++ EvReply 0 (RError None) :: asked_trace) n s.
Proof.
  change (like_trace ++ EvReply 0 (RError None) :: asked_trace) with
    ([] ++ [EvStart] ++ [EvCall 0 (Like 1 2)] ++ [EvSent 0] ++ [EvTaken 0] ++ [] ++
     [EvBatch [action_of 0 (Like 1 2)]] ++ [EvReply 0 (RError None)] ++ [] ++
     [EvCall 1 (GetProfile 1)] ++ [EvSent 1] ++ [EvTaken 1] ++ [] ++
     [EvBatch [action_of 1 (GetProfile 1)]] ++ [EvReply 1 (RProfile None)]).
  rewrite !app_assoc. do 2 eexists.
  eapply exec_work; [eapply exec_work; [eapply exec_work; [eapply exec_work; [eapply exec_env;
   [eapply exec_env; [eapply exec_work; [eapply exec_work; [eapply exec_work; [eapply exec_work;
   [eapply exec_work; [eapply exec_env; [eapply exec_env; [eapply exec_env;
   [constructor|..]|..]|..]|..]|..]|..]|..]|..]|..]|..]|..]|..]|..]|..].
  - done.
  - by apply (es_start fresh_namespace).
  - done.
  - apply es_call.
  - done.
  - eapply (es_send _ 0); [done..|]. cbn. unfold queue_capacity. lia.
  - done.
  - by eapply (gs_take _ (action_of 0 (Like 1 2))).
  - done.
  - by eapply gs_woke.
  - done.
  - eapply (gs_process _ [action_of 0 (Like 1 2)]); [done|]. unfold batch_length. lia.
  - done.
  - eapply (gs_reply _ (action_of 0 (Like 1 2))); [done..|]. by econstructor.
  - done.
  - by eapply gs_processed.
  - done.
  - apply (es_call (WState _ _ _ _ [_] _)).
  - done.
  - eapply (es_send _ 1); [done..|]. cbn. unfold queue_capacity. lia.
  - done.
  - by eapply (gs_take _ (action_of 1 (GetProfile 1))).
  - done.
  - by eapply gs_woke.
  - done.
  - eapply (gs_process _ [action_of 1 (GetProfile 1)]); [done|]. unfold batch_length. lia.
  - done.
  - eapply (gs_reply _ (action_of 1 (GetProfile 1))); [done..|]. by econstructor.
Qed.

Theorem C76_likes_seen_refuted : ~ likes_are_seen.
Proof.
  intros H. destruct asked_exec as (n & s & He).
  destruct (H like_trace asked_trace n s 0%nat 1%nat 1 2 None He) as (q & Hq & _).
  - unfold like_trace. set_solver.
  - unfold asked_trace. set_solver.
  - intros k' c Hc Hw. unfold like_trace, asked_trace in Hc.
    cbn [app] in Hc. rewrite !elem_of_cons in Hc.
    repeat (destruct Hc as [Hc|Hc]; [simplify_eq; done|]).
    by apply elem_of_nil in Hc.
  - unfold asked_trace. set_solver.
  - done.
Qed.
Print Assumptions C76_likes_seen_refuted.

Example C76_case : EvReply 1 (RProfile None) ∈ like_trace ++ EvReply 0 (RError None) :: asked_trace.
Proof. unfold like_trace, asked_trace. set_solver. Qed.
