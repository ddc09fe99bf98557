(** Invariants of the namespace worker and bounds on its steps. *)
From Verif Require Import Base Worker SpecWorker.

(** Actions the worker has taken and not answered yet. *)
Definition hand (p : pc) : list action :=
  match p with
  | WSleep a => [a]
  | WBatch acts _ _ => acts
  | WProcess acts => acts
  | WDrainSend a _ => [a]
  | _ => []
  end.

(** Storages not closed yet. *)
Definition unclosed (p : pc) : list storage :=
  match p with
  | WDefer l => l
  | WEnded => []
  | _ => [IndexStorage; DeltaStorage; LikeStorage]
  end.

Definition pc_inv (s : wstate) : Prop :=
  match w_pc s with
  | WBatch acts n i => length acts = 1%nat /\ n = 1%nat /\ i = 1%nat
  | WProcess acts => (length acts <= 1)%nat
  | WDrain t | WDrainSend _ t => t = []
  | WDrainTaken t => t = [] /\ w_queue s = [] /\ w_closed s = true
  | WDefer _ | WEnded => w_queue s = [] /\ w_closed s = true
  | _ => True
  end.

Lemma sent_app t1 t2 : sent (t1 ++ t2) = sent t1 ++ sent t2.
Proof. apply omap_app. Qed.
Lemma taken_app t1 t2 : taken (t1 ++ t2) = taken t1 ++ taken t2.
Proof. apply omap_app. Qed.
Lemma replies_app t1 t2 : replies (t1 ++ t2) = replies t1 ++ replies t2.
Proof. apply omap_app. Qed.
Lemma replied_app t1 t2 : replied (t1 ++ t2) = replied t1 ++ replied t2.
Proof. unfold replied. by rewrite replies_app, map_app. Qed.
Lemma storages_closed_app t1 t2 :
  storages_closed (t1 ++ t2) = storages_closed t1 ++ storages_closed t2.
Proof. apply omap_app. Qed.
Lemma batches_app t1 t2 : batches (t1 ++ t2) = batches t1 ++ batches t2.
Proof. apply omap_app. Qed.

(** ** The worker's control state *)

Record ctl_inv (tr : list event) (s : wstate) : Prop := CtlInv {
  ci_pc : pc_inv s;
  ci_close : storages_closed tr ++ unclosed (w_pc s) = [IndexStorage; DeltaStorage; LikeStorage];
  ci_batch : Forall (fun l => length l = 1%nat) (batches tr);
  ci_start : w_pc s = WNotStarted <-> EvStart ∉ tr;
  ci_stop : w_closed s = true <-> EvStop ∈ tr;
  ci_end : w_pc s = WEnded <-> EvEnd ∈ tr;
  ci_dead : w_dead s = true <-> EvCrash ∈ tr
}.

Lemma ctl_init : ctl_inv [] fresh_namespace.
Proof.
  split; cbn; try done; try (split; [done | intros H; by apply elem_of_nil in H]).
  split; [intros _ H; by apply elem_of_nil in H | done].
Qed.

(** What one step does to the control state. *)
Record ctl_change (s : wstate) (ev : list event) (s' : wstate) : Prop := CtlChange {
  cc_pc : pc_inv s';
  cc_close : storages_closed ev ++ unclosed (w_pc s') = unclosed (w_pc s);
  cc_batch : Forall (fun l => length l = 1%nat) (batches ev);
  cc_start : w_pc s' = WNotStarted <-> w_pc s = WNotStarted /\ EvStart ∉ ev;
  cc_stop : w_closed s' = true <-> w_closed s = true \/ EvStop ∈ ev;
  cc_end : w_pc s' = WEnded <-> w_pc s = WEnded \/ EvEnd ∈ ev;
  cc_dead : w_dead s' = true <-> w_dead s = true \/ EvCrash ∈ ev
}.

Lemma ctl_compose tr s ev s' : ctl_inv tr s -> ctl_change s ev s' -> ctl_inv (tr ++ ev) s'.
Proof.
  intros [H1 H2 H3 H4 H5 H6 H7] [C1 C2 C3 C4 C5 C6 C7]. split.
  - done.
  - by rewrite storages_closed_app, <- app_assoc, C2.
  - rewrite batches_app. by apply Forall_app.
  - rewrite C4, H4, elem_of_app. tauto.
  - rewrite C5, H5, elem_of_app. tauto.
  - rewrite C6, H6, elem_of_app. tauto.
  - rewrite C7, H7, elem_of_app. tauto.
Qed.

Ltac evs := rewrite ?elem_of_cons, ?elem_of_nil; cbn; intuition congruence.

Lemma env_change s ev s' : pc_inv s -> w_dead s = false -> estep s ev s' -> ctl_change s ev s'.
Proof.
  intros Hpc Hd He. unfold pc_inv in Hpc.
  destruct He; (split; [unfold pc_inv; cbn | cbn | cbn; by constructor | | | | ]); try evs; try done.
  - destruct (w_pc s); try done; intuition congruence.
  - destruct (w_pc s); try done; intuition congruence.
  - by rewrite H.
Qed.

Lemma worker_change s ev s' : pc_inv s -> w_dead s = false -> gstep s ev s' -> ctl_change s ev s'.
Proof.
  intros Hpc Hd Hg. unfold pc_inv in Hpc.
  destruct Hg as [s E E'|s a q E E'|s E E' E2|s a E|s acts n i a q E E' E2|s acts n i E E' E2 E3|
    s acts n i E E'|s a acts r s1 E E' Hr|s a acts E E'|s E|s t a q E E'|s t E E' E2|
    s a t s1 E Hr|s a t s1 E Hr|s E|s st l E|s E]; rewrite E in Hpc;
    try (destruct Hpc as (? & ? & ?); lia);
    try (inversion Hr; subst);
    (split; [unfold pc_inv; cbn; rewrite ?E | cbn; by rewrite ?E | cbn; auto | | | | ]);
    try evs; try done; try lia.
  - constructor; [|constructor]. tauto.
  - cbn in Hpc. lia.
Qed.

Lemma ctl_step tr s b ev s' :
  ctl_inv tr s -> wstep s (b, ev) s' -> ctl_inv (tr ++ ev) s'.
Proof.
  intros HC Hs. eapply ctl_compose; [done|]. pose proof (ci_pc _ _ HC).
  inversion Hs; subst; [by apply env_change | by apply worker_change].
Qed.

(** ** Actions and their callers *)

Record act_inv (tr : list event) (s : wstate) : Prop := ActInv {
  ai_sent : sent tr = replied tr ++ map a_caller (hand (w_pc s) ++ w_queue s);
  ai_taken : taken tr = replied tr ++ map a_caller (hand (w_pc s));
  ai_nodup : NoDup (sent tr);
  ai_pend : forall a, a ∈ hand (w_pc s) ++ w_queue s ->
    exists c, w_callers s !! a_caller a = Some (CWaiting c) /\ a = action_of (a_caller a) c;
  ai_wait : forall i c, w_callers s !! i = Some (CWaiting c) ->
    action_of i c ∈ hand (w_pc s) ++ w_queue s;
  ai_ans : forall i r, (i, r) ∈ replies tr <-> exists c, w_callers s !! i = Some (CAnswered c r);
  ai_fit : forall i c r, w_callers s !! i = Some (CAnswered c r) ->
    r = expected_reply c \/ r = refusal;
  ai_unsent : forall i c, w_callers s !! i = Some (CSending c) -> i ∉ sent tr;
  ai_bound : forall i, i ∈ sent tr -> (i < length (w_callers s))%nat;
  ai_idle : w_pc s = WNotStarted -> replied tr = [];
  ai_room : (length (w_queue s) <= queue_capacity)%nat
}.

Lemma a_caller_action_of i c : a_caller (action_of i c) = i.
Proof. by destruct c. Qed.

Lemma process_reply_expected i c : process_reply (action_of i c) = Ret (expected_reply c).
Proof. by destruct c. Qed.

Lemma receives_expected c : receives c (expected_reply c) = true.
Proof. by destruct c. Qed.

Lemma receives_refusal c : receives c refusal = true.
Proof. by destruct c. Qed.

Lemma action_of_not_stop i c : (a_type (action_of i c) =? ActionStop) = false.
Proof. by destruct c. Qed.

Lemma act_init : act_inv [] fresh_namespace.
Proof.
  split; cbn; try done; try (intros ? H; by apply elem_of_nil in H); try (by apply NoDup_nil).
  - intros i r. rewrite elem_of_nil. split; [done | by intros [c H]].
  - lia.
Qed.

(** A step that changes none of: the pending actions, the callers, the replies. *)
Lemma act_frame tr ev s s' :
  act_inv tr s ->
  hand (w_pc s') = hand (w_pc s) -> w_queue s' = w_queue s -> w_callers s' = w_callers s ->
  sent ev = [] -> taken ev = [] -> replies ev = [] ->
  (w_pc s' = WNotStarted -> w_pc s = WNotStarted) ->
  act_inv (tr ++ ev) s'.
Proof.
  intros [H1 H2 H3 H4 H5 H6 H7 H8 H9 H10 H11] Eh Eq Ec Es Et Er Ens.
  assert (Er' : replied ev = []) by (unfold replied; by rewrite Er).
  split; rewrite ?sent_app, ?taken_app, ?replies_app, ?replied_app, ?Es, ?Et, ?Er, ?Er',
    ?app_nil_r, ?Eh, ?Eq, ?Ec; auto.
Qed.

(** A step that takes the first queued action into an empty or growing hand. *)
Lemma act_take tr s s' a q :
  act_inv tr s -> w_queue s = a :: q -> w_queue s' = q ->
  hand (w_pc s') = hand (w_pc s) ++ [a] -> w_callers s' = w_callers s ->
  w_pc s' <> WNotStarted ->
  act_inv (tr ++ [EvTaken (a_caller a)]) s'.
Proof.
  intros [H1 H2 H3 H4 H5 H6 H7 H8 H9 H10 H11] Eq Eq' Eh Ec Ens.
  assert (E : hand (w_pc s') ++ w_queue s' = hand (w_pc s) ++ w_queue s)
    by (rewrite Eh, Eq', Eq, <- app_assoc; done).
  split; rewrite ?sent_app, ?taken_app, ?replies_app, ?replied_app; cbn [sent taken replies omap list_omap];
    rewrite ?app_nil_r, ?E, ?Ec; auto.
  - by rewrite H2, Eh, map_app, app_assoc.
  - done.
  - rewrite Eq'. rewrite Eq in H11. cbn in H11. lia.
Qed.

(** A step that answers the first action in hand. *)
Lemma act_reply tr s s' s'' a acts r :
  act_inv tr s -> hand (w_pc s) = a :: acts ->
  (process_reply a = Ret r \/ r = refusal) ->
  reply_to a r s s' -> w_callers s'' = w_callers s' -> w_queue s'' = w_queue s' ->
  hand (w_pc s'') = acts -> w_pc s'' <> WNotStarted ->
  act_inv (tr ++ [EvReply (a_caller a) r]) s''.
Proof.
  intros [H1 H2 H3 H4 H5 H6 H7 H8 H9 H10 H11] Eh Hr Hto Ec Eq Eh' Ens.
  inversion Hto as [c Hc Hrec]; subst. cbn in Ec, Eq.
  assert (Ha : a = action_of (a_caller a) c).
  { destruct (H4 a) as (c' & Hc' & E); [rewrite Eh; set_solver|]. rewrite Hc in Hc'. by simplify_eq. }
  assert (Hfit : r = expected_reply c \/ r = refusal).
  { destruct Hr as [Hr|Hr]; [|by right]. left. rewrite Ha, process_reply_expected in Hr. congruence. }
  assert (Hnd : NoDup (map a_caller (hand (w_pc s) ++ w_queue s))).
  { rewrite H1 in H3. by apply NoDup_app in H3 as (_ & _ & ?). }
  assert (Hfresh : forall b, b ∈ hand (w_pc s'') ++ w_queue s -> a_caller b <> a_caller a).
  { intros b Hb E. rewrite Eh in Hnd. cbn in Hnd. apply NoDup_cons in Hnd as [Hn _]. apply Hn.
    rewrite <- E. by apply elem_of_list_fmap_1. }
  assert (Hin : a_caller a ∈ sent tr).
  { rewrite H1, Eh. cbn. set_solver. }
  split; rewrite ?sent_app, ?taken_app, ?replies_app, ?replied_app; cbn [sent taken replies replied omap list_omap map fst];
    rewrite ?app_nil_r, ?Ec, ?Eq.
  - rewrite H1, Eh. cbn. rewrite <- app_assoc. done.
  - rewrite H2, Eh. cbn. rewrite <- app_assoc. done.
  - done.
  - intros b Hb. specialize (Hfresh b Hb).
    destruct (H4 b) as (c' & Hc' & E).
    { rewrite Eh. cbn. set_solver. }
    exists c'. rewrite list_lookup_insert_ne by congruence. done.
  - intros i c' Hi.
    destruct (decide (i = a_caller a)) as [-> |Hne].
    + rewrite list_lookup_insert in Hi by (by eapply lookup_lt_Some). done.
    + rewrite list_lookup_insert_ne in Hi by congruence.
      specialize (H5 _ _ Hi). rewrite Eh in H5. cbn in H5.
      apply elem_of_cons in H5 as [E|E]; [|done].
      exfalso. apply Hne. rewrite <- E. by rewrite a_caller_action_of.
  - intros i r'. rewrite elem_of_app, elem_of_list_singleton, H6. split.
    + intros [[c' Hi] | [= -> ->]].
      * exists c'. destruct (decide (i = a_caller a)) as [-> |Hne]; [congruence|].
        by rewrite list_lookup_insert_ne by congruence.
      * exists c. rewrite list_lookup_insert by (by eapply lookup_lt_Some). done.
    + intros [c' Hi].
      destruct (decide (i = a_caller a)) as [-> |Hne].
      * rewrite list_lookup_insert in Hi by (by eapply lookup_lt_Some). right. congruence.
      * rewrite list_lookup_insert_ne in Hi by congruence. left. by exists c'.
  - intros i c' r' Hi.
    destruct (decide (i = a_caller a)) as [-> |Hne].
    + rewrite list_lookup_insert in Hi by (by eapply lookup_lt_Some). by simplify_eq.
    + rewrite list_lookup_insert_ne in Hi by congruence. eauto.
  - intros i c' Hi.
    destruct (decide (i = a_caller a)) as [-> |Hne].
    + rewrite list_lookup_insert in Hi by (by eapply lookup_lt_Some). done.
    + rewrite list_lookup_insert_ne in Hi by congruence. eauto.
  - intros i Hi. rewrite insert_length. auto.
  - done.
  - done.
Qed.

Lemma act_step tr s b ev s' :
  ctl_inv tr s -> act_inv tr s -> wstep s (b, ev) s' -> act_inv (tr ++ ev) s'.
Proof.
  intros HC HA Hs. pose proof (ci_pc _ _ HC) as Hpc. unfold pc_inv in Hpc.
  inversion Hs as [? ? ? Hdd He | ? ? ? Hdd Hg]; subst.
  - destruct He as [s c|s i c K K0 K1|s i c K K0|s K|s K|s|s K]; try (by apply (act_frame _ _ _ _ HA)).
    + (* call *)
      destruct HA as [H1 H2 H3 H4 H5 H6 H7 H8 H9 H10 H11].
      assert (HS : forall i, i ∈ sent tr -> i <> length (w_callers s)).
      { intros i Hi ->. specialize (H9 _ Hi). lia. }
      assert (HL : forall i x, (w_callers s ++ [CSending c]) !! i = Some x ->
                   w_callers s !! i = Some x \/ (i = length (w_callers s) /\ x = CSending c)).
      { intros i x Hi. apply lookup_app_Some in Hi as [Hi|[Hle Hi]]; [by left|].
        right. destruct (i - length (w_callers s))%nat eqn:E; cbn in Hi; simplify_eq. split; [lia|done]. }
      split; rewrite ?sent_app, ?taken_app, ?replies_app, ?replied_app;
        cbn [sent taken replies replied omap list_omap map fst set_callers w_callers w_queue w_pc];
        rewrite ?app_nil_r; try done.
      * intros a Ha. destruct (H4 a Ha) as (c' & Hc & E). exists c'. split; [|done].
        by apply lookup_app_l_Some.
      * intros i c' Hi. apply HL in Hi as [Hi|[_ Hi]]; [eauto|done].
      * intros i r. rewrite H6. split; intros [c' Hi].
        -- exists c'. by apply lookup_app_l_Some.
        -- exists c'. by apply HL in Hi as [Hi|[_ Hi]].
      * intros i c' r Hi. apply HL in Hi as [Hi|[_ Hi]]; [eauto|done].
      * intros i c' Hi Hin. apply HL in Hi as [Hi|[-> _]]; [by eapply H8|]. by eapply HS.
      * intros i Hi. rewrite app_length. specialize (H9 _ Hi). lia.
    + (* send *)
      destruct HA as [H1 H2 H3 H4 H5 H6 H7 H8 H9 H10 H11].
      assert (Hlt : (i < length (w_callers s))%nat) by (by eapply lookup_lt_Some).
      pose proof (H8 _ _ K) as Hns.
      assert (HL : forall j x, <[i := CWaiting c]> (w_callers s) !! j = Some x ->
                 (j = i /\ x = CWaiting c) \/ (j <> i /\ w_callers s !! j = Some x)).
      { intros j x Hj. destruct (decide (j = i)) as [-> |Hne].
        - rewrite list_lookup_insert in Hj by done. left. by simplify_eq.
        - rewrite list_lookup_insert_ne in Hj by congruence. by right. }
      split; rewrite ?sent_app, ?taken_app, ?replies_app, ?replied_app;
        cbn [sent taken replies replied omap list_omap map fst set_callers set_queue w_callers w_queue w_pc];
        rewrite ?app_nil_r; try done.
      * rewrite H1. rewrite !app_assoc, !map_app. cbn. rewrite a_caller_action_of, <- !app_assoc. done.
      * apply NoDup_app. split; [done|]. split; [|apply NoDup_singleton].
        intros j Hj ->%elem_of_list_singleton. done.
      * intros a Ha. rewrite app_assoc, elem_of_app, elem_of_list_singleton in Ha.
        destruct Ha as [Ha| ->].
        -- destruct (H4 a Ha) as (c' & Hc & E). exists c'. split; [|done].
           rewrite list_lookup_insert_ne; [done|]. intros ->. congruence.
        -- exists c. rewrite a_caller_action_of. by rewrite list_lookup_insert.
      * intros j c' Hj. rewrite app_assoc, elem_of_app, elem_of_list_singleton.
        apply HL in Hj as [[-> [= ->]]|[_ Hj]]; [by right|left; eauto].
      * intros j r. rewrite H6. split; intros [c' Hj]; exists c'.
        -- destruct (decide (j = i)) as [-> |Hne]; [congruence|].
           by rewrite list_lookup_insert_ne by congruence.
        -- apply HL in Hj as [[_ Hj]|[_ Hj]]; done.
      * intros j c' r Hj. apply HL in Hj as [[_ Hj]|[_ Hj]]; [done|eauto].
      * intros j c' Hj. apply HL in Hj as [[_ Hj]|[Hne Hj]]; [done|].
        rewrite elem_of_app, elem_of_list_singleton. specialize (H8 _ _ Hj). tauto.
      * intros j Hj. rewrite insert_length. rewrite elem_of_app, elem_of_list_singleton in Hj.
        destruct Hj as [Hj| ->]; [auto|done].
      * rewrite app_length. cbn. lia.
    + (* start *)
      apply (act_frame _ _ _ _ HA); try done. by rewrite K.
  - inversion Hg; subst;
      try (match goal with H : w_pc s = _ |- _ => rewrite H in Hpc end).
    + apply (act_frame _ _ _ _ HA); try done; cbn; by rewrite ?H.
    + eapply act_take; try done; cbn; by rewrite ?H.
    + apply (act_frame _ _ _ _ HA); try done; cbn; by rewrite ?H.
    + apply (act_frame _ _ _ _ HA); try done; cbn; by rewrite ?H.
    + lia.
    + lia.
    + apply (act_frame _ _ _ _ HA); try done; cbn; by rewrite ?H.
    + eapply act_reply; [exact HA | by rewrite H | by left | exact H1 | done | done | done | done].
    + apply (act_frame _ _ _ _ HA); done.
    + apply (act_frame _ _ _ _ HA); try done; cbn; by rewrite ?H.
    + eapply act_take; try done; cbn; by rewrite ?H.
    + apply (act_frame _ _ _ _ HA); try done; cbn; by rewrite ?H.
    + eapply act_reply; [exact HA | by rewrite H | by right | exact H0 | done | done | done | done].
    + destruct Hpc as [? _]. done.
    + apply (act_frame _ _ _ _ HA); try done; cbn; by rewrite ?H.
    + apply (act_frame _ _ _ _ HA); try done; cbn; by rewrite ?H.
    + apply (act_frame _ _ _ _ HA); try done; cbn; by rewrite ?H.
Qed.

Lemma exec_inv tr n s : wexec fresh_namespace tr n s -> ctl_inv tr s /\ act_inv tr s.
Proof.
  intros H. remember fresh_namespace as s0 eqn:E. induction H as [|? ? ? ? ? ? ? ? IH]; subst.
  - split; [apply ctl_init | apply act_init].
  - destruct (IH eq_refl) as [HC HA]. split; [by eapply ctl_step | by eapply act_step].
Qed.

(** ** Progress *)

Lemma hand_caller_waits tr s a :
  act_inv tr s -> a ∈ hand (w_pc s) ->
  exists c, w_callers s !! a_caller a = Some (CWaiting c) /\ a = action_of (a_caller a) c.
Proof. intros HA Ha. apply (ai_pend _ _ HA). set_solver. Qed.

(** The worker is blocked only in its two receives, on an empty open channel. *)
Lemma progress tr s :
  ctl_inv tr s -> act_inv tr s -> w_dead s = false ->
  w_pc s <> WNotStarted -> w_pc s <> WEnded ->
  (w_pc s = WSelect -> w_queue s = [] -> w_closed s = false -> w_cancelled s = true) ->
  (forall t, w_pc s = WDrain t -> w_queue s = [] -> w_closed s = true) ->
  worker_can_step s.
Proof.
  intros HC HA Hd Hns Hne Hsel Hdr. pose proof (ci_pc _ _ HC) as Hpc. unfold pc_inv in Hpc.
  cut (exists ev s', gstep s ev s').
  { intros (ev & s' & H). exists ev, s'. by constructor. }
  destruct (w_pc s) as [ | | a | acts n i | acts | t | a t | t | l | ] eqn:E; try done.
  - destruct (w_queue s) as [|a q] eqn:Eq.
    + destruct (w_closed s) eqn:Ec.
      * eexists _, _. by apply gs_closed.
      * eexists _, _. apply gs_done; [done|]. by apply Hsel.
    + eexists _, _. by eapply gs_take.
  - eexists _, _. by eapply gs_woke.
  - eexists _, _. eapply gs_process; [done|]. lia.
  - destruct acts as [|a acts].
    + eexists _, _. by apply gs_processed.
    + destruct (hand_caller_waits _ _ a HA) as (c & Hc & Ea); [rewrite E; set_solver|].
      eexists _, _. eapply gs_reply; [done | rewrite Ea; apply process_reply_expected |].
      econstructor; [done|]. apply receives_expected.
  - destruct (w_queue s) as [|a q] eqn:Eq.
    + eexists _, _. eapply gs_drain_closed; try done. by eapply Hdr.
    + eexists _, _. by eapply gs_drain_take.
  - destruct (hand_caller_waits _ _ a HA) as (c & Hc & Ea); [rewrite E; set_solver|].
    eexists _, _. eapply gs_drain_reply; [done|]. econstructor; [done|]. apply receives_refusal.
  - destruct Hpc as [-> _]. eexists _, _. by apply gs_return.
  - destruct l as [|st l].
    + eexists _, _. by apply gs_end.
    + eexists _, _. by eapply gs_defer.
Qed.

(** ** How long a caller waits *)

(** The place of caller [i] in the queue, counted from 1; 0 when absent. *)
Fixpoint place (i : nat) (q : list action) : nat :=
  match q with
  | [] => 0
  | a :: q' => if decide (a_caller a = i) then 1
               else match place i q' with O => 0 | S k => S (S k) end
  end.

Lemma place_pos i q : i ∈ map a_caller q <-> (0 < place i q)%nat.
Proof.
  induction q as [|a q IH]; cbn.
  - rewrite elem_of_nil. lia.
  - rewrite elem_of_cons, IH. destruct (decide (a_caller a = i)) as [E|E].
    + split; [lia|intros _; by left].
    + destruct (place i q); split; intros H; try lia; try (destruct H; [congruence|lia]); right; lia.
Qed.

Lemma place_le i q : (place i q <= length q)%nat.
Proof.
  induction q as [|a q IH]; cbn; [lia|]. destruct (decide (a_caller a = i)); [lia|].
  destruct (place i q); lia.
Qed.

Lemma place_app i q a : i ∈ map a_caller q \/ a_caller a <> i -> place i (q ++ [a]) = place i q.
Proof.
  induction q as [|b q IH]; cbn.
  - intros [H|H]; [by apply elem_of_nil in H|]. by destruct (decide (a_caller a = i)).
  - destruct (decide (a_caller b = i)) as [E|E]; [done|]. intros [H|H].
    + apply elem_of_cons in H as [H|H]; [congruence|]. rewrite IH by (by left). done.
    + rewrite IH by (by right). done.
Qed.

Definition weight (p : pc) : nat :=
  match p with
  | WNotStarted | WSelect => 1
  | WSleep _ => 5
  | WBatch _ _ _ => 4
  | WProcess acts => 2 + length acts
  | WDrainSend _ _ => 1
  | _ => 0
  end.

Definition delay (s : wstate) (i : nat) : nat := weight (w_pc s) + 5 * place i (w_queue s).

Lemma waiting_delay tr s i :
  ctl_inv tr s -> act_inv tr s -> waiting s i -> (0 < delay s i)%nat.
Proof.
  intros HC HA [c Hc]. pose proof (ai_wait _ _ HA _ _ Hc) as Hin. unfold delay.
  apply elem_of_app in Hin as [Hin|Hin].
  - destruct (w_pc s); cbn in *; try lia; by apply elem_of_nil in Hin.
  - assert (0 < place i (w_queue s))%nat; [|lia]. apply place_pos.
    rewrite <- (a_caller_action_of i c). by apply elem_of_list_fmap_1.
Qed.

Lemma place_tail s tr a q i :
  act_inv tr s -> w_queue s = a :: q -> waiting s i ->
  a_caller a = i /\ place i q = 0%nat \/ a_caller a <> i /\
    (i ∈ map a_caller q /\ place i (a :: q) = S (place i q) \/ place i (a :: q) = 0%nat /\ place i q = 0%nat).
Proof.
  intros HA Eq Hw. cbn. destruct (decide (a_caller a = i)) as [E|E].
  - left. split; [done|].
    destruct (place i q) eqn:Ep; [done|]. exfalso.
    assert (Hin : i ∈ map a_caller q) by (apply place_pos; lia).
    pose proof (ai_nodup _ _ HA) as Hnd. rewrite (ai_sent _ _ HA), Eq in Hnd.
    rewrite map_app in Hnd. apply NoDup_app in Hnd as (_ & _ & Hnd).
    apply NoDup_app in Hnd as (_ & _ & Hnd). cbn in Hnd. apply NoDup_cons in Hnd as [Hn _].
    apply Hn. by rewrite E.
  - right. split; [done|]. destruct (place i q) eqn:Ep; [right; done|].
    left. split; [apply place_pos; lia | done].
Qed.

Lemma delay_step tr s b ev s' i :
  ctl_inv tr s -> act_inv tr s -> w_pc s <> WNotStarted -> waiting s i ->
  wstep s (b, ev) s' ->
  answered s' i \/
  (waiting s' i /\ w_pc s' <> WNotStarted /\
   (delay s' i + (if b then 1 else 0) <= delay s i)%nat).
Proof.
  intros HC HA Hns Hw Hs. pose proof (ci_pc _ _ HC) as Hpc. unfold pc_inv in Hpc.
  pose proof Hw as [c Hc]. unfold delay.
  inversion Hs as [? ? ? Hdd He | ? ? ? Hdd Hg]; subst.
  - right. destruct He; cbn; try (split; [by exists c|]; split; [done|lia]).
    + split; [exists c; by apply lookup_app_l_Some | split; [done|lia]].
    + assert (Hne : i0 <> i) by (intros ->; congruence).
      split; [exists c; cbn; by rewrite list_lookup_insert_ne|]. split; [done|].
      rewrite place_app; [lia|]. right. by rewrite a_caller_action_of.
    + congruence.
  - assert (Hrep : forall a r s1, reply_to a r s s1 ->
               answered s1 i \/ waiting s1 i /\ w_queue s1 = w_queue s).
    { intros a r s1 H. inversion H; subst. destruct (decide (a_caller a = i)) as [<- |Hne].
      - left. exists c0, r. cbn. rewrite list_lookup_insert; [done|]. by eapply lookup_lt_Some.
      - right. split; [|done]. exists c. cbn. by rewrite list_lookup_insert_ne. }
    inversion Hg; subst;
      try (match goal with H : w_pc s = _ |- _ => rewrite H in Hpc |- * end); cbn -[place].
    + right. split; [by exists c | split; [done|lia]].
    + right. split; [by exists c | split; [done|]].
      destruct (place_tail _ _ _ _ i HA H0 Hw) as [[E E']|[E [[_ E']|[E' E'']]]]; rewrite H0.
      * cbn [place]. rewrite decide_True by done. lia.
      * lia.
      * exfalso. assert (Hin := ai_wait _ _ HA _ _ Hc). rewrite H in Hin. cbn in Hin.
        assert (Hin' : i ∈ map a_caller (w_queue s)).
        { rewrite <- (a_caller_action_of i c). by apply elem_of_list_fmap_1. }
        rewrite H0 in Hin'. apply place_pos in Hin'. lia.
    + right. split; [by exists c | split; [done|lia]].
    + right. split; [by exists c | split; [done|lia]].
    + lia.
    + lia.
    + right. split; [by exists c | split; [done|]]. destruct Hpc as [-> _]. lia.
    + destruct (Hrep _ _ _ H1) as [Ha|[Hwa Eq]]; [by left|]. right.
      split; [done|]. split; [done|]. rewrite Eq. lia.
    + exfalso. destruct (hand_caller_waits _ _ a HA) as (c' & _ & Ea); [rewrite H; set_solver|].
      rewrite Ea, process_reply_expected in H0. done.
    + right. split; [by exists c | split; [done|lia]].
    + right. split; [by exists c | split; [done|]].
      destruct (place_tail _ _ _ _ i HA H0 Hw) as [[E E']|[E [[_ E']|[E' E'']]]]; rewrite H0.
      * cbn [place]. rewrite decide_True by done. lia.
      * lia.
      * exfalso. assert (Hin := ai_wait _ _ HA _ _ Hc). rewrite H in Hin. cbn in Hin.
        assert (Hin' : i ∈ map a_caller (w_queue s)).
        { rewrite <- (a_caller_action_of i c). by apply elem_of_list_fmap_1. }
        rewrite H0 in Hin'. apply place_pos in Hin'. lia.
    + exfalso. assert (Hin := ai_wait _ _ HA _ _ Hc). rewrite H, H0 in Hin. by apply elem_of_nil in Hin.
    + destruct (Hrep _ _ _ H0) as [Ha|[Hwa Eq]]; [by left|]. right.
      split; [done|]. split; [done|]. rewrite Eq. lia.
    + by destruct Hpc.
    + exfalso. assert (Hin := ai_wait _ _ HA _ _ Hc). destruct Hpc as (_ & Eq & _).
      rewrite H, Eq in Hin. by apply elem_of_nil in Hin.
    + exfalso. assert (Hin := ai_wait _ _ HA _ _ Hc). destruct Hpc as (Eq & _).
      rewrite H, Eq in Hin. by apply elem_of_nil in Hin.
    + exfalso. assert (Hin := ai_wait _ _ HA _ _ Hc). destruct Hpc as (Eq & _).
      rewrite H, Eq in Hin. by apply elem_of_nil in Hin.
Qed.

Lemma answered_step s b ev s' i : wstep s (b, ev) s' -> answered s i -> answered s' i.
Proof.
  intros Hs (c & r & Hc). exists c, r.
  inversion Hs as [? ? ? Hdd He | ? ? ? Hdd Hg]; subst.
  - destruct He; cbn; try done.
    + by apply lookup_app_l_Some.
    + rewrite list_lookup_insert_ne; [done|]. intros ->. congruence.
  - destruct Hg; cbn; try done;
      match goal with H : reply_to _ _ _ _ |- _ => inversion H; subst end; cbn;
      (rewrite list_lookup_insert_ne; [done|]; intros E; rewrite E in *; congruence).
Qed.

Lemma wexec_trans s1 tr1 n1 s2 tr2 n2 s3 :
  wexec s1 tr1 n1 s2 -> wexec s2 tr2 n2 s3 -> wexec s1 (tr1 ++ tr2) (n1 + n2) s3.
Proof.
  intros H1 H2. induction H2 as [|? ? ? ? ? ? ? ? IH].
  - by rewrite app_nil_r, Nat.add_0_r.
  - rewrite app_assoc, Nat.add_assoc. econstructor; [by apply IH|done].
Qed.

Lemma delay_exec tr n s i tr2 k s2 :
  wexec fresh_namespace tr n s -> w_pc s <> WNotStarted -> waiting s i ->
  wexec s tr2 k s2 ->
  answered s2 i \/ (waiting s2 i /\ w_pc s2 <> WNotStarted /\ (delay s2 i + k <= delay s i)%nat).
Proof.
  intros H Hns Hw H2. revert Hns Hw H. induction H2 as [|s tr2 k s' b ev s'' He IH Hst]; intros Hns Hw H.
  - right. split; [done|]. split; [done|]. lia.
  - destruct (IH Hns Hw H) as [Ha|(Hw' & Hns' & Hle)].
    + left. by eapply answered_step.
    + destruct (exec_inv _ _ _ (wexec_trans _ _ _ _ _ _ _ H He)) as [HC HA].
      destruct (delay_step _ _ _ _ _ i HC HA Hns' Hw' Hst) as [Ha|(Hw2 & Hns2 & Hle2)]; [by left|].
      right. split; [done|]. split; [done|]. destruct b; lia.
Qed.

Lemma delay_bound tr s i :
  ctl_inv tr s -> (delay s i <= 5 * (length (w_queue s) + 1))%nat.
Proof.
  intros HC. pose proof (ci_pc _ _ HC) as Hpc. unfold pc_inv in Hpc. unfold delay.
  pose proof (place_le i (w_queue s)). destruct (w_pc s); cbn -[place]; lia.
Qed.

(** ** How long the worker lives after Stop *)

Definition lifetime (s : wstate) : nat :=
  5 * length (w_queue s) +
  match w_pc s with
  | WNotStarted | WSelect => 7
  | WSleep _ => 11
  | WBatch _ _ _ => 10
  | WProcess acts => 8 + length acts
  | WDrain _ => 6
  | WDrainSend _ _ => 7
  | WDrainTaken _ => 5
  | WDefer l => 1 + length l
  | WEnded => 0
  end.

Lemma lifetime_step tr s b ev s' :
  ctl_inv tr s -> act_inv tr s -> w_pc s <> WNotStarted -> w_closed s = true ->
  wstep s (b, ev) s' ->
  w_pc s' <> WNotStarted /\ w_closed s' = true /\
  (lifetime s' + (if b then 1 else 0) <= lifetime s)%nat.
Proof.
  intros HC HA Hns Hcl Hs. pose proof (ci_pc _ _ HC) as Hpc. unfold pc_inv in Hpc. unfold lifetime.
  inversion Hs as [? ? ? Hdd He | ? ? ? Hdd Hg]; subst.
  - destruct He; cbn; try congruence; (split; [done|]; split; [done|lia]).
  - inversion Hg; subst;
      try (match goal with H : reply_to _ _ _ _ |- _ => inversion H; subst end);
      try (match goal with H : w_pc s = _ |- _ => rewrite H in Hpc |- * end); cbn;
      try (split; [done|]; split; [done|]; try rewrite H0; cbn; lia);
      try lia.
    + exfalso. destruct (hand_caller_waits _ _ a HA) as (c' & _ & Ea); [rewrite H; set_solver|].
      rewrite Ea, process_reply_expected in H0. done.
    + by destruct Hpc.
Qed.

Lemma lifetime_exec tr n s tr2 k s2 :
  wexec fresh_namespace tr n s -> w_pc s <> WNotStarted -> w_closed s = true ->
  wexec s tr2 k s2 ->
  w_pc s2 <> WNotStarted /\ w_closed s2 = true /\ (lifetime s2 + k <= lifetime s)%nat.
Proof.
  intros H Hns Hw H2. revert Hns Hw H. induction H2 as [|s tr2 k s' b ev s'' He IH Hst]; intros Hns Hw H.
  - split; [done|]. split; [done|]. lia.
  - destruct (IH Hns Hw H) as (Hns' & Hw' & Hle).
    destruct (exec_inv _ _ _ (wexec_trans _ _ _ _ _ _ _ H He)) as [HC HA].
    destruct (lifetime_step _ _ _ _ _ HC HA Hns' Hw' Hst) as (Hns2 & Hw2 & Hle2).
    split; [done|]. split; [done|]. destruct b; lia.
Qed.

Lemma lifetime_bound tr s :
  ctl_inv tr s -> (lifetime s <= 5 * length (w_queue s) + 11)%nat.
Proof.
  intros HC. pose proof (ci_pc _ _ HC) as Hpc. pose proof (ci_close _ _ HC) as Hcl.
  unfold pc_inv in Hpc. unfold lifetime.
  destruct (w_pc s) eqn:E; cbn in *; try lia.
  apply (f_equal length) in Hcl. rewrite app_length in Hcl. cbn in Hcl. lia.
Qed.

(** ** Traces *)

Definition call_of (x : caller) : call :=
  match x with CSending c | CWaiting c | CAnswered c _ => c end.

Lemma exec_calls tr n s : wexec fresh_namespace tr n s ->
  forall i c, EvCall i c ∈ tr <-> exists x, w_callers s !! i = Some x /\ call_of x = c.
Proof.
  intros H. remember fresh_namespace as s0 eqn:E.
  induction H as [|s0 tr n s b ev s' He IH Hs]; subst; intros i c.
  { rewrite elem_of_nil. split; [done|]. by intros (x & Hx & _). }
  specialize (IH eq_refl).
  assert (Hsame : (forall i c, EvCall i c ∉ ev) -> map call_of (w_callers s') = map call_of (w_callers s) ->
    (EvCall i c ∈ tr ++ ev <-> exists x, w_callers s' !! i = Some x /\ call_of x = c)).
  { intros Hno Em. rewrite elem_of_app, IH.
    assert (Hl : forall l, (exists x, l !! i = Some x /\ call_of x = c) <-> map call_of l !! i = Some c).
    { intros l. rewrite list_lookup_fmap. destruct (l !! i) as [x|]; cbn; split.
      - intros (y & [= ->] & ->). done.
      - intros [= E]. by exists x.
      - by intros (y & ? & _).
      - done. }
    rewrite !Hl, Em. specialize (Hno i c). tauto. }
  assert (Hins : forall (l : list caller) j x c0, l !! j = Some x -> call_of x = call_of c0 ->
            map call_of (<[j:=c0]> l) = map call_of l).
  { intros l j x c0 Hj Ex. rewrite list_fmap_insert. apply list_insert_id.
    rewrite list_lookup_fmap, Hj. cbn. by rewrite Ex. }
  inversion Hs as [? ? ? Hdd Hev | ? ? ? Hdd Hg]; subst.
  - destruct Hev as [s c0|s j c0 K K0 K1|s j c0 K K0|s K|s K|s|s K];
      try (apply Hsame; [intros ? ?; rewrite elem_of_list_singleton; done | done]).
    + rewrite elem_of_app, elem_of_list_singleton, IH. cbn. split.
      * intros [(x & Hx & <-)|[= -> ->]].
        -- exists x. split; [by apply lookup_app_l_Some|done].
        -- exists (CSending c0). split; [|done]. by rewrite lookup_app_r, Nat.sub_diag by done.
      * intros (x & Hx & <-). apply lookup_app_Some in Hx as [Hx|[Hle Hx]].
        -- left. by exists x.
        -- right. destruct (i - length (w_callers s))%nat eqn:Ei; cbn in Hx; simplify_eq.
           cbn. f_equal. lia.
    + apply Hsame; [intros ? ?; rewrite elem_of_list_singleton; done|]. cbn. by eapply Hins.
  - destruct Hg; try (apply Hsame; [intros ? ?; first [apply not_elem_of_nil | rewrite elem_of_list_singleton; done] | done]);
      (match goal with H : reply_to _ _ _ _ |- _ => inversion H; subst end;
       apply Hsame; [intros ? ?; rewrite elem_of_list_singleton; done|]; cbn; by eapply Hins).
Qed.

(** Without a cancellation draining begins only when the queue is empty and closed,
    so no call is refused. *)
Definition draining (p : pc) : bool :=
  match p with
  | WDrain _ | WDrainSend _ _ | WDrainTaken _ | WDefer _ | WEnded => true
  | _ => false
  end.

Lemma exec_refusals tr n s : wexec fresh_namespace tr n s ->
  (w_cancelled s = true -> EvCancel ∈ tr) /\
  (draining (w_pc s) = true ->
   EvCancel ∈ tr \/ (w_queue s = [] /\ w_closed s = true /\ hand (w_pc s) = [])) /\
  (forall i, (i, refusal) ∈ replies tr -> EvCancel ∈ tr).
Proof.
  intros H. remember fresh_namespace as s0 eqn:E.
  induction H as [|s0 tr n s b ev s' He IH Hs]; subst.
  { split; [done|]. split; [done|]. intros i Hi. by apply elem_of_nil in Hi. }
  specialize (IH eq_refl) as (IH1 & IH2 & IH3).
  destruct (exec_inv _ _ _ He) as [HC HA].
  assert (Hmon : EvCancel ∈ tr -> EvCancel ∈ tr ++ ev) by (intros; apply elem_of_app; by left).
  destruct (decide (w_cancelled s = true)) as [Hcan|Hcan].
  { specialize (Hmon (IH1 Hcan)). tauto. }
  assert (Hx : (w_cancelled s' = true -> EvCancel ∈ ev) /\
    (draining (w_pc s') = true -> EvCancel ∈ tr ++ ev \/
      (w_queue s' = [] /\ w_closed s' = true /\ hand (w_pc s') = [])) /\
    (forall i, (i, refusal) ∈ replies ev -> EvCancel ∈ tr)).
  { inversion Hs as [? ? ? Hdd Hev | ? ? ? Hdd Hg]; subst.
    - destruct Hev; cbn; (split; [try done|split; [|intros i' Hi; by apply elem_of_nil in Hi]]);
        try (intros Hdr; destruct (IH2 Hdr) as [?|(? & ? & ?)]; [by left; apply Hmon|];
             first [congruence | by right]).
      + intros _. set_solver.
      + done.
    - pose proof (ci_pc _ _ HC) as Hpc. unfold pc_inv in Hpc.
      inversion Hg as [s1 P C|s1 a q P Q|s1 P Q C|s1 a P|s1 acts m i a q P L Q|s1 acts m i P L Q C|
        s1 acts m i P L|s1 a acts r s2 P R T|s1 a acts P R|s1 P|s1 t a q P Q|s1 t P Q C|
        s1 a t s2 P T|s1 a t s2 P T|s1 P|s1 st l P|s1 P]; subst; rewrite P in Hpc, IH2;
        try (inversion T; subst); cbn in IH2 |- *; try lia; try done;
        (split; [done|split; [try done|intros i'; try (intros Hi; by apply elem_of_nil in Hi)]]).
      all: try (intros _; destruct (IH2 eq_refl) as [?|(? & ? & ?)]; [by left; apply Hmon|];
                first [congruence | by right]).
      all: try (intros _; right; by rewrite ?P).
      + cbn. rewrite elem_of_list_singleton. intros [= _ <-].
        destruct (hand_caller_waits _ _ a HA) as (c' & _ & Ea); [rewrite P; set_solver|].
        rewrite Ea, process_reply_expected in R. by destruct c'.
      + by rewrite P.
      + intros _. by destruct (IH2 eq_refl) as [?|(? & ? & ?)].
      + by destruct Hpc. }
  destruct Hx as (X1 & X2 & X3). split; [|split].
  - intros Hc. apply elem_of_app. right. auto.
  - done.
  - intros i Hi. apply Hmon. rewrite replies_app, elem_of_app in Hi.
    destruct Hi as [Hi|Hi]; [by eapply IH3|by eapply X3].
Qed.

(** A step shows at most one event. *)
Lemma step_events s b ev s' : wstep s (b, ev) s' -> ev = [] \/ exists e, ev = [e].
Proof.
  intros Hs. inversion Hs as [? ? ? _ He | ? ? ? _ Hg]; subst.
  - destruct He; eauto.
  - destruct Hg; eauto.
Qed.

Lemma exec_split s t1 e t2 n s' : wexec s (t1 ++ e :: t2) n s' ->
  exists n1 s1 b s2 n2, wexec s t1 n1 s1 /\ wstep s1 (b, [e]) s2 /\ wexec s2 t2 n2 s'.
Proof.
  intros H. remember (t1 ++ e :: t2) as tr eqn:E. revert t2 E.
  induction H as [s|s tr n s' b ev s'' He IH Hs]; intros t2 E.
  { by destruct t1. }
  destruct (step_events _ _ _ _ Hs) as [-> |[x ->]].
  - rewrite app_nil_r in E. destruct (IH _ E) as (n1 & s1 & b1 & s2 & n2 & ? & ? & H2).
    exists n1, s1, b1, s2, (n2 + (if b then 1 else 0))%nat. split; [done|]. split; [done|].
    rewrite <- (app_nil_r t2). by econstructor.
  - destruct (decide (t2 = [])) as [-> |Hne].
    + apply app_inj_tail in E as [-> ->]. exists n, s', b, s'', 0%nat.
      split; [done|]. split; [done|]. constructor.
    + destruct (exists_last Hne) as (t & y & ->).
      rewrite app_comm_cons, app_assoc in E. apply app_inj_tail in E as [E ->].
      destruct (IH _ E) as (n1 & s1 & b1 & s2 & n2 & ? & ? & H2).
      exists n1, s1, b1, s2, (n2 + (if b then 1 else 0))%nat. split; [done|]. split; [done|].
      by econstructor.
Qed.

(** Nothing enters a closed queue. *)
Lemma closed_no_sends s tr n s' :
  wexec s tr n s' -> w_closed s = true -> w_closed s' = true /\ sent tr = [].
Proof.
  intros H Hc. induction H as [|s tr n s' b ev s'' He IH Hs]; [done|].
  destruct (IH Hc) as [Hc' E]. rewrite sent_app, E. cbn.
  inversion Hs as [? ? ? _ Hev | ? ? ? _ Hg]; subst.
  - destruct Hev; cbn; try done. congruence.
  - destruct Hg; cbn; try done;
      match goal with H : reply_to _ _ _ _ |- _ => inversion H; subst; done end.
Qed.

(** Once it closes storages the worker does nothing else. *)
Definition closing_pc (p : pc) : Prop := match p with WDefer _ | WEnded => True | _ => False end.
Lemma closing_stays s tr n s' : wexec s tr n s' -> closing_pc (w_pc s) -> closing_pc (w_pc s').
Proof.
  intros H Hc. induction H as [|s tr n s' b ev s'' He IH Hs]; [done|]. specialize (IH Hc).
  inversion Hs as [? ? ? _ Hev | ? ? ? _ Hg]; subst.
  - destruct Hev; try done. by rewrite H in IH.
  - destruct Hg; try done; match goal with E : w_pc _ = _ |- _ => by rewrite E in IH end.
Qed.

(** A draining worker only refuses. *)
Lemma draining_refuses s tr n s' :
  wexec s tr n s' -> draining (w_pc s) = true ->
  draining (w_pc s') = true /\ forall i r, (i, r) ∈ replies tr -> r = refusal.
Proof.
  intros H Hc. induction H as [|s tr n s' b ev s'' He IH Hs].
  { split; [done|]. intros i r Hi. by apply elem_of_nil in Hi. }
  destruct (IH Hc) as [Hc' E]. setoid_rewrite replies_app.
  inversion Hs as [? ? ? _ Hev | ? ? ? _ Hg]; subst.
  - destruct Hev; cbn; rewrite ?app_nil_r; try done. by rewrite H in Hc'.
  - destruct Hg; cbn; rewrite ?app_nil_r;
      try (by match goal with H : w_pc _ = _ |- _ => rewrite H in Hc' end); try done;
      (split; [done|]; intros i r; rewrite elem_of_app, elem_of_list_singleton;
       intros [?|[= -> ->]]; [eauto|done]).
Qed.
