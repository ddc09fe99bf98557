(** Facts about the worker with a clock. *)
From Verif Require Import Base Worker SpecWorker WorkerFacts WorkerTime SpecWorkerTime.

Lemma timed_untimed P s tr s' : texec P s tr s' -> exists n, wexec (t_w s) tr n (t_w s').
Proof.
  intros H. induction H as [s|s tr s1 ev s2 He [n IH] Hs]; [exists 0%nat; constructor|].
  destruct Hs as [s1 d Hd Hp|s1 ev w Hw|s1 ev w Hw Ha]; cbn.
  - rewrite app_nil_r. by exists n.
  - exists (n + 0)%nat. by eapply (wexec_snoc _ _ _ _ false).
  - exists (n + 1)%nat. by eapply (wexec_snoc _ _ _ _ true).
Qed.

Lemma timed_weaken P s tr s' : texec P s tr s' -> texec any_time s tr s'.
Proof.
  intros H. induction H as [s|s tr s1 ev s2 He IH Hs]; [constructor|].
  econstructor; [done|]. destruct Hs; by constructor.
Qed.

Lemma timed_trans P s1 t1 s2 t2 s3 :
  texec P s1 t1 s2 -> texec P s2 t2 s3 -> texec P s1 (t1 ++ t2) s3.
Proof.
  intros H1 H2. induction H2 as [|s tr s' ev s'' He IH Hs]; [by rewrite app_nil_r|].
  rewrite app_assoc. econstructor; [by apply IH|done].
Qed.

(** The Sleep is never longer than one wait. *)
Lemma wake_bound P tr s : texec P fresh_timed tr s ->
  is_sleeping (w_pc (t_w s)) = true -> t_wake s <= t_now s + one_wait.
Proof.
  intros H. remember fresh_timed as s0 eqn:E. induction H as [s|s tr s1 ev s2 He IH Hs]; subst.
  { done. }
  specialize (IH eq_refl). destruct Hs as [s1 d Hd Hp|s1 ev w Hw|s1 ev w Hw Ha]; cbn.
  - intros Hsl. specialize (IH Hsl). lia.
  - intros Hsl. apply IH. inversion Hw as [? ? ? Hdd Hev|]; subst.
    destruct Hev; cbn in Hsl; try done.
  - intros ->. unfold fill_wait, one_wait. lia.
Qed.

(** ** No earlier *)

(** What the time since [t0] is enough for, in waits: [k] answers given. *)
Definition paid (t0 : Z) (k : nat) (s : tstate) : Prop :=
  match w_pc (t_w s) with
  | WSleep _ => t0 + one_wait * (Z.of_nat k + 1) <= t_wake s
  | WBatch _ _ _ | WProcess (_ :: _) => t0 + one_wait * (Z.of_nat k + 1) <= t_now s
  | _ => t0 + one_wait * Z.of_nat k <= t_now s
  end.

Lemma paid_exec tr s tr2 s2 :
  texec any_time fresh_timed tr s -> idle tr ->
  texec any_time s tr2 s2 -> EvCancel ∉ tr ++ tr2 ->
  paid (t_now s) (length (replied tr2)) s2.
Proof.
  intros H Hi H2. remember s as s0 eqn:E0. revert E0. 
  induction H2 as [s'|s' tr2 s1 ev s3 He IH Hs]; intros E0 Hc; subst s'.
  - destruct (timed_untimed _ _ _ _ H) as [n Hn].
    destruct (exec_inv _ _ _ Hn) as [HC HA]. unfold idle in Hi.
    rewrite (ai_taken _ _ HA) in Hi.
    assert (Hh : map a_caller (hand (w_pc (t_w s))) = []).
    { rewrite <- (app_nil_r (replied tr)) in Hi at 2. by apply app_inv_head in Hi. }
    apply map_eq_nil in Hh. pose proof (ci_pc _ _ HC) as Hpc. unfold pc_inv in Hpc. unfold paid. cbn.
    destruct (w_pc (t_w s)) as [| | |acts ? ?|acts| | | | |]; cbn in *; try lia; try done.
    + subst. by destruct Hpc.
    + subst. lia.
  - assert (Hc1 : EvCancel ∉ tr ++ tr2) by set_solver.
    specialize (IH H eq_refl Hc1).
    pose proof (timed_trans _ _ _ _ _ _ H He) as H1.
    destruct (timed_untimed _ _ _ _ H1) as [n Hn].
    destruct (exec_inv _ _ _ Hn) as [HC HA]. pose proof (ci_pc _ _ HC) as Hpc. unfold pc_inv in Hpc.
    destruct (exec_refusals _ _ _ Hn) as (R1 & R2 & _).
    rewrite replied_app, app_length.
    destruct Hs as [s1 d Hd Hp|s1 ev w Hw|s1 ev w Hw Ha].
    + unfold paid in *. cbn [t_w t_now t_wake replied replies omap list_omap map length]. rewrite Nat.add_0_r.
      destruct (w_pc (t_w s1)) as [| | | |[|]| | | | |]; lia.
    + unfold paid in *. cbn [t_w t_now t_wake].
      inversion Hw as [? ? ? Hdd Hev|]; subst.
      destruct Hev as [w1 c|w1 i c K K0 K1|w1 i c K K0|w1 K|w1 K|w1|w1 K];
        cbn [replied replies omap list_omap map length set_callers set_queue set_closed set_cancelled
             set_pc crash w_pc]; rewrite Nat.add_0_r; try exact IH.
      rewrite K in IH. exact IH.
    + unfold paid in *. cbn [t_w t_now t_wake].
      inversion Hw as [|? ? ? Hdd Hg]; subst. unfold awake in Ha.
      inversion Hg as [w1 P C|w1 a q P Q|w1 P Q C|w1 a P|w1 acts m i a q P L Q|w1 acts m i P L Q C|
        w1 acts m i P L|w1 a acts r w2 P R T|w1 a acts P R|w1 P|w1 t a q P Q|w1 t P Q C|
        w1 a t w2 P T|w1 a t w2 P T|w1 P|w1 st l P|w1 P]; subst; rewrite P in Hpc, IH, Ha, R2;
        try (inversion T; subst);
        cbn [replied replies omap list_omap map length set_callers set_queue set_closed set_cancelled
             set_pc crash w_pc is_sleeping fst] in *; rewrite ?P, ?Nat.add_0_r; try lia.
      * unfold fill_wait, one_wait in *. lia.
      * destruct Hpc as (Hl & _). destruct acts; [done|]. exact IH.
      * destruct acts as [|b acts]; [|by cbn in Hpc; lia]. unfold one_wait in *. cbn. lia.
      * destruct (R2 eq_refl) as [X|(_ & _ & X)]; [|done]. set_solver.
      * by destruct Hpc.
Qed.

Lemma paid_time t0 k s : paid t0 k s ->
  (is_sleeping (w_pc (t_w s)) = true -> t_wake s <= t_now s + one_wait) ->
  t0 + one_wait * Z.of_nat k <= t_now s.
Proof.
  unfold paid, one_wait. intros H Hs. destruct (w_pc (t_w s)) as [| |?| |[|]| | | | |]; try lia.
  specialize (Hs eq_refl). lia.
Qed.

(** ** No later *)

(** The moment by which caller [i] has the reply, when no time is lost. *)
Definition deadline (s : tstate) (i : nat) : Z :=
  let p := Z.of_nat (place i (w_queue (t_w s))) in
  match w_pc (t_w s) with
  | WSleep _ => Z.max (t_now s) (t_wake s) + one_wait * p
  | _ => t_now s + one_wait * p
  end.

Lemma waiting_step tr s b ev s' i :
  ctl_inv tr s -> act_inv tr s -> w_pc s <> WNotStarted -> waiting s i ->
  wstep s (b, ev) s' -> answered s' i \/ (waiting s' i /\ w_pc s' <> WNotStarted).
Proof.
  intros HC HA Hns Hw Hs.
  destruct (delay_step _ _ _ _ _ i HC HA Hns Hw Hs) as [?|(? & ? & _)]; tauto.
Qed.

Lemma deadline_worker tr s ev w i :
  ctl_inv tr (t_w s) -> act_inv tr (t_w s) -> waiting (t_w s) i -> waiting w i -> awake s ->
  wstep (t_w s) (true, ev) w ->
  deadline (TState w (t_now s) (if is_sleeping (w_pc w) then t_now s + fill_wait else t_wake s)) i
    <= deadline s i.
Proof.
  intros HC HA Hw Hw' Ha Hs. pose proof (ci_pc _ _ HC) as Hpc. unfold pc_inv in Hpc.
  pose proof Hw as [c Hc]. unfold deadline, awake in *. cbn [t_w t_now t_wake].
  assert (Hq : forall a q, w_queue (t_w s) = a :: q -> hand (w_pc (t_w s)) = [] ->
    place i (a :: q) = S (place i q)).
  { intros a q Q P. assert (Hin := ai_wait _ _ HA _ _ Hc). rewrite P in Hin. cbn in Hin.
    destruct (place_tail _ _ _ _ i HA Q Hw) as [[E E']|[E [[_ E']|[E' E'']]]]; [|done|].
    - cbn [place]. rewrite decide_True by done. lia.
    - exfalso. assert (Hin' : i ∈ map a_caller (w_queue (t_w s))).
      { rewrite <- (a_caller_action_of i c). by apply elem_of_list_fmap_1. }
      rewrite Q in Hin'. apply place_pos in Hin'. lia. }
  inversion Hs as [|? ? ? Hdd Hg]; subst.
  inversion Hg as [w1 P C|w1 a q P Q|w1 P Q C|w1 a P|w1 acts m j a q P L Q|w1 acts m j P L Q C|
    w1 acts m j P L|w1 a acts r w2 P R T|w1 a acts P R|w1 P|w1 t a q P Q|w1 t P Q C|
    w1 a t w2 P T|w1 a t w2 P T|w1 P|w1 st l P|w1 P]; subst; rewrite P in Hpc, Ha, Hq |- *;
    try (inversion T; subst);
    cbn [hand is_sleeping set_pc set_queue set_callers crash w_pc w_queue] in *; rewrite ?P; try lia.
  - rewrite Q, (Hq _ _ Q eq_refl). unfold one_wait, fill_wait. lia.
  - rewrite Q, (Hq _ _ Q eq_refl). unfold one_wait. lia.
Qed.

Lemma deadline_env s ev w i :
  waiting (t_w s) i -> w_pc (t_w s) <> WNotStarted -> wstep (t_w s) (false, ev) w ->
  deadline (TState w (t_now s) (t_wake s)) i = deadline s i.
Proof.
  intros [c Hc] Hns Hs. inversion Hs as [? ? ? Hdd Hev|]; subst. unfold deadline.
  destruct Hev as [w1 c1|w1 j c1 K K0 K1|w1 j c1 K K0|w1 K|w1 K|w1|w1 K];
    cbn [t_w t_now t_wake set_pc set_queue set_callers set_closed set_cancelled crash w_pc w_queue]; try done.
  rewrite place_app; [done|]. right. rewrite a_caller_action_of. intros ->. congruence.
Qed.

(** While a call waits the worker has something to do. *)
Lemma waiting_can_step tr n s i :
  wexec fresh_namespace tr n s -> w_pc s <> WNotStarted -> w_dead s = false -> waiting s i ->
  worker_can_step s.
Proof.
  intros H Hns Hd [c Hc]. destruct (exec_inv _ _ _ H) as [HC HA].
  pose proof (ai_wait _ _ HA _ _ Hc) as Hin. eapply progress; try done.
  - intros E. pose proof (ci_pc _ _ HC) as Hpc. unfold pc_inv in Hpc. rewrite E in Hpc.
    rewrite E, (proj1 Hpc) in Hin. by apply elem_of_nil in Hin.
  - intros E Eq. rewrite E, Eq in Hin. by apply elem_of_nil in Hin.
  - intros t E Eq. rewrite E, Eq in Hin. by apply elem_of_nil in Hin.
Qed.

Lemma deadline_exec tr s i tr2 s2 :
  texec any_time fresh_timed tr s -> EvStart ∈ tr -> waiting (t_w s) i ->
  texec no_time_lost s tr2 s2 -> EvCrash ∉ tr ++ tr2 ->
  answered (t_w s2) i \/
  (waiting (t_w s2) i /\ w_pc (t_w s2) <> WNotStarted /\ deadline s2 i <= deadline s i).
Proof.
  intros H Hst Hw H2. remember s as s0 eqn:E0. revert E0.
  induction H2 as [s'|s' tr2 s1 ev s3 He IH Hs]; intros E0 Hcr; subst s'.
  - right. split; [done|]. split; [|lia].
    destruct (timed_untimed _ _ _ _ H) as [n Hn]. destruct (exec_inv _ _ _ Hn) as [HC HA].
    intros E. by apply (ci_start _ _ HC) in E.
  - assert (Hcr1 : EvCrash ∉ tr ++ tr2) by set_solver.
    destruct (IH H Hw eq_refl Hcr1) as [Ha|(Hw1 & Hns & Hle)].
    { left. destruct Hs as [s1 d Hd Hp|s1 ev w Hs|s1 ev w Hs Haw]; cbn; [done|..];
        by eapply answered_step. }
    pose proof (timed_trans _ _ _ _ _ _ H (timed_weaken _ _ _ _ He)) as H1.
    destruct (timed_untimed _ _ _ _ H1) as [n Hn]. destruct (exec_inv _ _ _ Hn) as [HC HA].
    assert (Hd : w_dead (t_w s1) = false).
    { destruct (w_dead (t_w s1)) eqn:E; [|done]. by apply (ci_dead _ _ HC) in E. }
    destruct Hs as [s1 d Hd0 Hp|s1 ev w Hs|s1 ev w Hs Haw]; cbn [t_w].
    + right. split; [done|]. split; [done|].
      pose proof (waiting_can_step _ _ _ _ Hn Hns Hd Hw1) as Hcan.
      unfold no_time_lost, awake in Hp. cbn in Hp. unfold deadline in *. cbn in *.
      destruct (decide (d = 0)) as [-> |Hne]; [by rewrite Z.add_0_r|].
      destruct (w_pc (t_w s1)) as [| |a| | | | | | |] eqn:Ep;
        try (exfalso; apply (Hp (t_now s1)); [lia|done|cbn; done]).
      destruct (decide (t_wake s1 < t_now s1 + d)) as [Hlt|]; [|lia].
      exfalso. apply (Hp (Z.max (t_now s1) (t_wake s1))); [lia|done|cbn; lia].
    + destruct (waiting_step _ _ _ _ _ i HC HA Hns Hw1 Hs) as [?|[Hw2 Hns2]]; [by left|].
      right. split; [done|]. split; [done|]. by rewrite (deadline_env _ _ _ _ Hw1 Hns Hs).
    + destruct (waiting_step _ _ _ _ _ i HC HA Hns Hw1 Hs) as [?|[Hw2 Hns2]]; [by left|].
      right. split; [done|]. split; [done|].
      pose proof (deadline_worker _ _ _ _ i HC HA Hw1 Hw2 Haw Hs). lia.
Qed.
