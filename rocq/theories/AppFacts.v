(** Facts about Application.Run. *)
From Verif Require Import Base App.

(** ** What a trace shows *)

(** The results of ListenAndServe, as sent on listenError. *)
Definition listens (tr : list aevent) : list (option err) :=
  omap (fun e => match e with
    EvListenFailed e => Some (Some (listen_error e)) | EvServerClosed => Some None | _ => None end) tr.
Definition returns (tr : list aevent) : list (option err) :=
  omap (fun e => match e with EvReturned r => Some r | _ => None end) tr.
Definition deliveries (tr : list aevent) : list unit :=
  omap (fun e => match e with EvDelivered => Some tt | _ => None end) tr.
Definition exits (tr : list aevent) : list (option Z) :=
  omap (fun e => match e with EvExited c => Some (Some c) | EvKilled => Some None | _ => None end) tr.
Definition cancels (tr : list aevent) : list unit :=
  omap (fun e => match e with EvCancelled => Some tt | _ => None end) tr.
Definition timers (tr : list aevent) : list unit :=
  omap (fun e => match e with EvTimer => Some tt | _ => None end) tr.
Definition close_failures (tr : list aevent) : list unit :=
  omap (fun e => match e with EvCloseFailed => Some tt | _ => None end) tr.

Ltac proj := unfold listens, returns, deliveries, exits, cancels, timers, close_failures in *.

Lemma listens_app a b : listens (a ++ b) = listens a ++ listens b.
Proof. apply omap_app. Qed.
Lemma returns_app a b : returns (a ++ b) = returns a ++ returns b.
Proof. apply omap_app. Qed.
Lemma deliveries_app a b : deliveries (a ++ b) = deliveries a ++ deliveries b.
Proof. apply omap_app. Qed.
Lemma exits_app a b : exits (a ++ b) = exits a ++ exits b.
Proof. apply omap_app. Qed.
Lemma cancels_app a b : cancels (a ++ b) = cancels a ++ cancels b.
Proof. apply omap_app. Qed.
Lemma timers_app a b : timers (a ++ b) = timers a ++ timers b.
Proof. apply omap_app. Qed.
Lemma close_failures_app a b : close_failures (a ++ b) = close_failures a ++ close_failures b.
Proof. apply omap_app. Qed.

(** ** Invariant *)

Definition lst_inv (l : lpc) (ls rs : list (option err)) : Prop :=
  match l with LSend r => ls = [r] | LDone => ls = rs /\ length rs = 1%nat | _ => ls = [] end.

Definition main_inv (m : mpc) (rs : list (option err)) (ds cs : list unit) (xs : list (option Z)) : Prop :=
  match m with
  | MStart | MNotify | MReady | MWait => rs = [] /\ ds = [] /\ cs = [] /\ xs = []
  | MQuit | MShutdown | MSelect => rs = [] /\ ds = [tt] /\ cs = [] /\ xs = []
  | MReturned r => rs = [r] /\ ds = [tt] /\ cs = [] /\ xs = []
  | MCancel => rs = [None] /\ ds = [tt] /\ cs = [tt] /\ xs = []
  | MExited c => ds = [tt] /\ xs = [Some c] /\
      ((c = 0 /\ rs = [None] /\ cs = [tt]) \/ (c = 1 /\ cs = [] /\ exists e, rs = [Some e]))
  | MKilled => rs = [] /\ ds = [] /\ cs = [] /\ xs = [None]
  end.

Definition shut_inv (m : mpc) (sh : bool) : Prop :=
  match m with
  | MShutdown | MSelect | MReturned _ | MCancel | MExited _ => sh = true
  | _ => sh = false
  end.

(** Where a result comes from. *)
Definition cause (l : lpc) (t : bool) (fs : list unit) (r : option err) : Prop :=
  l = LDone \/ (r = Some shutdown_error /\ (t = true \/ fs <> [])) \/ (r = Some timeout_error /\ t = true).

Record app_inv (tr : list aevent) (s : app) : Prop := {
  ai_lst : lst_inv (a_lst s) (listens tr) (returns tr);
  ai_main : main_inv (a_main s) (returns tr) (deliveries tr) (cancels tr) (exits tr);
  ai_shut : shut_inv (a_main s) (a_shut s);
  ai_start : a_lst s = LNone -> a_main s = MStart \/ a_main s = MKilled;
  ai_start' : a_main s = MStart -> a_lst s = LNone;
  ai_timer : a_timer s = true -> timers tr <> [];
  ai_cause : Forall (cause (a_lst s) (a_timer s) (close_failures tr)) (returns tr);
  ai_signal : (deliveries tr <> [] \/ a_main s = MKilled) -> EvSignal ∈ tr;
}.

Lemma fresh_inv : app_inv [] fresh_app.
Proof.
  constructor; cbn; try done.
  - by left.
  - intros [H|H]; done.
Qed.

Lemma cause_mono l l' t t' fs fs' rs :
  (l = LDone -> l' = LDone) -> (t = true -> t' = true) -> (fs <> [] -> fs' <> []) ->
  Forall (cause l t fs) rs -> Forall (cause l' t' fs') rs.
Proof. intros Hl Ht Hf H. eapply Forall_impl; [exact H|]. intros r. unfold cause. tauto. Qed.

Lemma step_inv tr s b ev s' : app_inv tr s -> astep s (b, ev) s' -> app_inv (tr ++ ev) s'.
Proof.
  intros [I1 I2 I3 I4 I5 I6 I7 I8] Hs. destruct s as [m l sh t c].
  inversion Hs as [? ? ? Hrun Hp|? ? ? Hrun Ho|? ? ? Hrun Ho]; subst; clear Hs; [inversion Hp|inversion Ho|inversion Ho]; subst;
    cbn [a_main a_lst a_shut a_timer a_conns at_main at_lst with_conns shutting timed_out] in *; subst;
    clear Hrun; try clear Hp; try clear Ho;
    constructor; cbn [a_main a_lst a_shut a_timer a_conns];
    rewrite ?listens_app, ?returns_app, ?deliveries_app, ?exits_app, ?cancels_app, ?timers_app, ?close_failures_app;
    revert I1 I2 I6 I7 I8;
    generalize (listens tr) (returns tr) (deliveries tr) (exits tr) (cancels tr) (timers tr) (close_failures tr);
    intros ls rs ds xs cs ts fs I1 I2 I6 I7 I8; proj; cbn; rewrite ?app_nil_r.
  all: unfold lst_inv, shut_inv, main_inv in *.
  all: try assumption.
  all: try congruence.
  all: try (destruct I2 as (E1 & E2 & E3 & E4); subst rs ds cs xs; cbn).
  all: try (intros El; destruct (I4 El); congruence).
  all: try (intros ->; specialize (I5 eq_refl); congruence).
  all: try (intros Hx; first [apply I8|apply elem_of_app; left; apply I8]; first [exact Hx|left; congruence|
              destruct Hx; congruence]).
  all: try by constructor.
  all: try (by repeat split; eauto).
  all: try (subst ls; done).
  all: try (destruct l; first [exact I1|by destruct I1]).
  all: try (specialize (I5 eq_refl); subst; done).
  all: try (eapply cause_mono; [..|exact I7]; done).
  all: try (constructor; [|done]; unfold cause; tauto).
  all: try (constructor; [|done]; right; left; split; [done|right; by destruct fs]).
  all: try (intros _; apply elem_of_app; right; apply elem_of_list_here).
  all: try (intros _; by destruct ts).
  all: match goal with H : _ \/ _ |- _ => destruct H as [-> | ->] end; destruct I2 as (-> & -> & -> & ->) || idtac; done.
Qed.

Lemma exec_inv tr n s : aexec fresh_app tr n s -> app_inv tr s.
Proof.
  remember fresh_app as s0. induction 1 as [s|s tr n s' b ev s'' _ IH Hs]; [subst; apply fresh_inv|].
  by eapply step_inv; [apply IH|].
Qed.

Lemma exec_trans s tr n s' tr2 k s2 : aexec s tr n s' -> aexec s' tr2 k s2 -> aexec s (tr ++ tr2) (n + k) s2.
Proof.
  intros H. induction 1 as [s'|s' tr2 k s2 b ev s3 _ IH Hs].
  - by rewrite app_nil_r, Nat.add_0_r.
  - rewrite app_assoc, Nat.add_assoc. by eapply aexec_snoc; [apply IH|].
Qed.

(** ** Membership and projections *)

Lemma in_returns tr r : EvReturned r ∈ tr <-> r ∈ returns tr.
Proof.
  unfold returns. rewrite elem_of_list_omap. split.
  - intros H. by exists (EvReturned r).
  - intros (x & Hx & E). destruct x; try discriminate E. by injection E as ->.
Qed.
Lemma in_deliveries tr : EvDelivered ∈ tr <-> deliveries tr <> [].
Proof.
  unfold deliveries. split.
  - intros H E. assert (Hin : tt ∈ omap (fun e => match e with EvDelivered => Some tt | _ => None end) tr).
    { apply elem_of_list_omap. by exists EvDelivered. }
    rewrite E in Hin. by apply elem_of_nil in Hin.
  - destruct (omap _ tr) as [|x l] eqn:E; [done|]. intros _.
    assert (Hin : x ∈ x :: l) by apply elem_of_list_here. rewrite <- E in Hin.
    apply elem_of_list_omap in Hin as (y & Hy & E'). by destruct y.
Qed.
Lemma in_timers tr : timers tr <> [] -> EvTimer ∈ tr.
Proof.
  unfold timers. destruct (omap _ tr) as [|x l] eqn:E; [done|]. intros _.
  assert (Hin : x ∈ x :: l) by apply elem_of_list_here. rewrite <- E in Hin.
  apply elem_of_list_omap in Hin as (y & Hy & E'). by destruct y.
Qed.
Lemma in_close_failures tr : close_failures tr <> [] -> EvCloseFailed ∈ tr.
Proof.
  unfold close_failures. destruct (omap _ tr) as [|x l] eqn:E; [done|]. intros _.
  assert (Hin : x ∈ x :: l) by apply elem_of_list_here. rewrite <- E in Hin.
  apply elem_of_list_omap in Hin as (y & Hy & E'). by destruct y.
Qed.
Lemma in_listens_failed tr e : EvListenFailed e ∈ tr -> Some (listen_error e) ∈ listens tr.
Proof. intros H. apply elem_of_list_omap. by exists (EvListenFailed e). Qed.
Lemma in_listens_closed tr : EvServerClosed ∈ tr -> None ∈ listens tr.
Proof. intros H. apply elem_of_list_omap. by exists EvServerClosed. Qed.
Lemma listens_in tr r : r ∈ listens tr ->
  (r = None /\ EvServerClosed ∈ tr) \/ exists e, EvListenFailed e ∈ tr /\ r = Some (listen_error e).
Proof.
  intros H. apply elem_of_list_omap in H as (y & Hy & E). destruct y; try discriminate E; injection E as <-; eauto.
Qed.
Lemma in_exits tr c : EvExited c ∈ tr <-> Some c ∈ exits tr.
Proof.
  unfold exits. rewrite elem_of_list_omap. split.
  - intros H. by exists (EvExited c).
  - intros (x & Hx & E). destruct x; try discriminate E. by injection E as ->.
Qed.
Lemma in_cancels tr : EvCancelled ∈ tr <-> cancels tr <> [].
Proof.
  unfold cancels. split.
  - intros H E. assert (Hin : tt ∈ omap (fun e => match e with EvCancelled => Some tt | _ => None end) tr).
    { apply elem_of_list_omap. by exists EvCancelled. }
    rewrite E in Hin. by apply elem_of_nil in Hin.
  - destruct (omap _ tr) as [|x l] eqn:E; [done|]. intros _.
    assert (Hin : x ∈ x :: l) by apply elem_of_list_here. rewrite <- E in Hin.
    apply elem_of_list_omap in Hin as (y & Hy & E'). by destruct y.
Qed.

Lemma listens_short tr s : app_inv tr s -> (length (listens tr) <= 1)%nat.
Proof.
  intros [I1 _ _ _ _ _ _ _]. destruct (a_lst s); cbn in I1; try (rewrite I1; cbn; lia). destruct I1 as [-> ->]. lia.
Qed.

(** ** Termination after a signal *)

Definition mleft (m : mpc) : nat :=
  match m with
  | MStart => 8 | MNotify => 7 | MReady => 6 | MWait => 5
  | MQuit => 5 | MShutdown => 4 | MSelect => 3 | MReturned _ => 2 | MCancel => 1 | MExited _ => 0 | MKilled => 0
  end.
Definition steps_left (s : app) : nat := mleft (a_main s) + if a_timer s then 0 else 1.

Lemma step_left s b ev s' : astep s (b, ev) s' -> (steps_left s' + (if b then 1 else 0) <= steps_left s)%nat.
Proof.
  intros Hs. destruct s as [m l sh t c].
  inversion Hs as [? ? ? Hrun Hp|? ? ? Hrun Ho|? ? ? Hrun Ho]; subst; [inversion Hp|inversion Ho|inversion Ho]; subst;
    cbn in *; subst; unfold steps_left; cbn; try destruct t; try lia; try done.
  all: match goal with H : _ \/ _ |- _ => destruct H as [-> | ->] end; cbn; lia.
Qed.

Lemma exec_left s tr n s' : aexec s tr n s' -> (n + steps_left s' <= steps_left s)%nat.
Proof.
  induction 1 as [s|s tr n s' b ev s'' _ IH Hs]; [lia|]. apply step_left in Hs. lia.
Qed.

(** The main goroutine or the timer can go on unless it waits for a signal. *)
Lemma main_progress s : running s = true -> a_main s <> MWait -> exists ev s', astep s (true, ev) s'.
Proof.
  intros Hr Hw. enough (exists ev s', pstep s ev s') as (ev & s' & H) by (exists ev, s'; by apply as_main).
  destruct s as [m l sh t c]. destruct m as [| | | | | | |[e|]| | |]; try done.
  - eexists _, _. by apply ps_go.
  - eexists _, _. by apply ps_notify.
  - eexists _, _. by apply ps_wait.
  - eexists _, _. by apply ps_shutdown.
  - destruct t; eexists _, _; [by apply ps_deadline|apply ps_timer; [by left|done]].
  - destruct t; eexists _, _; [by apply ps_timeout|apply ps_timer; [by right|done]].
  - eexists _, _. by eapply ps_fatal.
  - eexists _, _. by apply ps_return.
  - eexists _, _. by apply ps_exit.
Qed.
