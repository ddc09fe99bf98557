(** Application.Run: how connections and the listener fare in a shutdown (C58, C74). *)
From Verif Require Import Base App AppFacts PropApp.

(** Connections that began, and that ended. *)
Definition opened (tr : list aevent) : nat :=
  length (omap (fun e => match e with EvServing => Some tt | _ => None end) tr).
Definition ended (tr : list aevent) : nat :=
  length (omap (fun e => match e with EvGone => Some tt | _ => None end) tr).

Lemma opened_app a b : opened (a ++ b) = (opened a + opened b)%nat.
Proof. unfold opened. by rewrite omap_app, app_length. Qed.
Lemma ended_app a b : ended (a ++ b) = (ended a + ended b)%nat.
Proof. unfold ended. by rewrite omap_app, app_length. Qed.

(** * C74 *)

(** The contract: the shard exits cleanly only when every connection has ended. *)
Definition graceful : Prop :=
  forall tr n s, aexec fresh_app tr n s -> EvExited 0 ∈ tr -> opened tr = ended tr.

(** A connection accepted but not registered when Shutdown looks is cut off. *)
Theorem C74_graceful_refuted : ~ graceful.
Proof.
  intros H.
  assert (He : exists n, aexec fresh_app [EvSignal; EvDelivered; EvServing; EvServerClosed; EvReturned None; EvCancelled; EvExited 0] n
    (App (MExited 0) LDone true false 1)).
  { eexists.
    change [EvSignal; EvDelivered; EvServing; EvServerClosed; EvReturned None; EvCancelled; EvExited 0] with
      ([] ++ [] ++ [] ++ [] ++ [] ++ [] ++ [] ++ [] ++ [EvSignal; EvDelivered] ++ [] ++ [] ++ [EvServing] ++
       [EvServerClosed] ++ [EvReturned None] ++ [EvCancelled] ++ [EvExited 0]).
    rewrite !app_assoc.
    eapply exec_main; [eapply exec_main; [eapply exec_main; [eapply exec_listener; [eapply exec_listener;
      [eapply exec_main; [eapply exec_main; [eapply exec_outside; [eapply exec_outside; [eapply exec_listener;
      [eapply exec_listener; [eapply exec_listener;
      [eapply exec_main; [eapply exec_main; [eapply exec_main; [constructor|..]|..]|..]|..]|..]|..]|..]|..]|..]|..]|..]|..]|..]|..]|..].
    - done.
    - by apply ps_go.
    - done.
    - by apply ps_notify.
    - done.
    - by apply ps_wait.
    - done.
    - by apply ls_enter.
    - done.
    - by apply ls_listen.
    - done.
    - by apply ls_register.
    - done.
    - by apply os_connect.
    - done.
    - by apply os_deliver.
    - done.
    - by apply ps_shutdown.
    - done.
    - by apply ps_quiet.
    - done.
    - by apply ls_accepted.
    - done.
    - by apply ls_accept_closed.
    - done.
    - by apply (ps_receive _ None).
    - done.
    - by apply ps_return.
    - done.
    - by apply ps_exit. }
  destruct He as [n He].
  assert (Hx : EvExited 0 ∈ [EvSignal; EvDelivered; EvServing; EvServerClosed; EvReturned None; EvCancelled; EvExited 0])
    by (repeat (first [apply elem_of_list_here|apply elem_of_list_further])).
  specialize (H _ _ _ He Hx). discriminate H.
Qed.
Print Assumptions C74_graceful_refuted.

Lemma balance tr n s : aexec fresh_app tr n s -> opened tr = (ended tr + a_conns s)%nat.
Proof.
  remember fresh_app as s0. induction 1 as [s|s tr n s' b ev s'' _ IH Hs]; [by subst|].
  specialize (IH Heqs0). rewrite opened_app, ended_app. destruct s' as [m l sh t c].
  inversion Hs as [? ? ? _ Hp|? ? ? _ Hp|? ? ? _ Hp]; subst; inversion Hp; subst; cbn in *; subst; cbn; lia.
Qed.

Definition pending (l : lpc) : nat := match l with LAccepted => 1 | _ => 0 end.

(** After the shutdown began nobody connects. *)
Lemma late tr n s s' : aexec s tr n s' -> a_shut s = true ->
  a_shut s' = true /\ (opened tr + pending (a_lst s') <= pending (a_lst s))%nat.
Proof.
  induction 1 as [s|s tr n s' b ev s'' _ IH Hs]; [by cbn|].
  intros H. destruct (IH H) as [Hsh Hle]. rewrite opened_app. destruct s' as [m l sh t c]. cbn in Hsh. subst sh.
  inversion Hs as [? ? ? _ Hp|? ? ? _ Hp|? ? ? _ Hp]; subst; inversion Hp; subst; cbn in *; subst; cbn in *;
    split; try done; try lia.
Qed.

Definition past_quiet (m : mpc) : bool :=
  match m with MSelect | MReturned None | MCancel => true | MExited c => c =? 0 | _ => false end.

(** There was a moment without connections. *)
Lemma quiet_moment tr n s : aexec fresh_app tr n s -> past_quiet (a_main s) = true ->
  exists tr1 n1 s1 tr2 n2, tr = tr1 ++ tr2 /\ aexec fresh_app tr1 n1 s1 /\ aexec s1 tr2 n2 s /\
    a_main s1 = MShutdown /\ a_conns s1 = 0%nat.
Proof.
  remember fresh_app as s0. induction 1 as [s|s tr n s' b ev s'' He IH Hs]; [by subst|].
  subst s. intros Hq. specialize (IH eq_refl).
  destruct (past_quiet (a_main s')) eqn:Hq'.
  - destruct (IH eq_refl) as (tr1 & n1 & s1 & tr2 & n2 & -> & H1 & H2 & Hm & Hc).
    exists tr1, n1, s1, (tr2 ++ ev). eexists. split; [by rewrite app_assoc|]. split; [done|]. split; [|done].
    eapply aexec_snoc; [exact H2|exact Hs].
  - assert (Hm : a_main s' = MShutdown /\ a_conns s' = 0%nat).
    { destruct s' as [m l sh t c]. cbn in Hq'.
      inversion Hs as [? ? ? Hrun Hp|? ? ? Hrun Hp|? ? ? Hrun Hp]; subst; inversion Hp; subst; cbn in *; subst; try done.
      all: congruence. }
    exists tr, n, s', ev. eexists. split; [done|]. split; [done|]. split; [|done].
    change ev with ([] ++ ev) at 1. eapply aexec_snoc; [constructor|exact Hs].
Qed.

(** The true part: before Run returned there was a moment when all the connections
    begun until then had ended, and at most one began later. *)
Theorem C74_graceful_partial :
  forall tr n s, aexec fresh_app tr n s -> EvExited 0 ∈ tr ->
  (opened tr <= ended tr + 1)%nat /\
  exists tr1 tr2, tr = tr1 ++ tr2 /\ EvDelivered ∈ tr1 /\ (forall r, EvReturned r ∉ tr1) /\
    opened tr1 = ended tr1 /\ (opened tr2 <= 1)%nat.
Proof.
  intros tr n s H Hx. pose proof (exec_inv _ _ _ H) as I.
  apply in_exits in Hx. pose proof (ai_main _ _ I) as Hm.
  assert (Hq : past_quiet (a_main s) = true).
  { destruct (a_main s) as [| | | | | | |r| |c|]; cbn in Hm;
      try (destruct Hm as (_ & _ & _ & E); rewrite E in Hx; by first [apply elem_of_nil in Hx|apply elem_of_list_singleton in Hx]).
    destruct Hm as (_ & E & _). rewrite E in Hx. apply elem_of_list_singleton in Hx. by injection Hx as <-. }
  destruct (quiet_moment _ _ _ H Hq) as (tr1 & n1 & s1 & tr2 & n2 & -> & H1 & H2 & Hm1 & Hc1).
  pose proof (exec_inv _ _ _ H1) as I1. pose proof (balance _ _ _ H1) as B1. pose proof (balance _ _ _ H) as B.
  pose proof (ai_main _ _ I1) as M1. rewrite Hm1 in M1. destruct M1 as (Hr1 & Hd1 & _).
  pose proof (ai_shut _ _ I1) as S1. rewrite Hm1 in S1. cbn in S1.
  destruct (late _ _ _ _ H2 S1) as [_ Hl].
  assert (Hp : (pending (a_lst s1) <= 1)%nat) by (destruct (a_lst s1); cbn; lia).
  rewrite opened_app, ended_app in *. split; [lia|]. exists tr1, tr2. split; [done|]. split; [|split; [|split]].
  - apply in_deliveries. by rewrite Hd1.
  - intros r Hr. apply in_returns in Hr. rewrite Hr1 in Hr. by apply elem_of_nil in Hr.
  - lia.
  - lia.
Qed.
Print Assumptions C74_graceful_partial.

Example C74_case : exists tr n s, aexec fresh_app tr n s /\ EvExited 0 ∈ tr /\ opened tr = 1%nat.
Proof.
  destruct C58_clean_case as [n H]. eexists _, n, _. split; [exact H|]. split; [|done].
  by repeat (first [apply elem_of_list_here|apply elem_of_list_further]).
Qed.

(** [C58_clean_case] is an execution with a connection that exits with 0. *)

(** * C58, the listener *)

Definition listener_left (l : lpc) : nat :=
  match l with
  | LNone => 0 | LEnter => 4 | LListen => 3 | LRegister => 2 | LAccept => 1 | LAccepted => 2 | LSend _ => 0 | LDone => 0
  end.

(** Once the shutdown has begun the listener goroutine is never stuck before it has
    its result, and needs at most four more steps to get it. *)
Theorem C58_listener_ends :
  forall tr n s, aexec fresh_app tr n s -> running s = true -> a_shut s = true ->
  ((exists r, a_lst s = LSend r) \/ a_lst s = LDone \/ exists ev s', lstep s ev s') /\
  (forall ev s', lstep s ev s' -> (listener_left (a_lst s') < listener_left (a_lst s) <= 4)%nat) /\
  (forall b ev s', astep s (b, ev) s' -> (listener_left (a_lst s') <= listener_left (a_lst s))%nat).
Proof.
  intros tr n s H Hr Hs. pose proof (exec_inv _ _ _ H) as I. destruct s as [m l sh t c]. cbn in Hs. subst sh.
  split; [|split].
  - destruct l; try (by left; eauto); try (by right; left); right; right.
    + destruct (ai_start _ _ I eq_refl) as [E|E]; cbn in E; subst m; [|done].
      pose proof (ai_shut _ _ I) as S. discriminate S.
    + eexists _, _. by apply ls_enter_closed.
    + eexists _, _. by apply ls_listen.
    + eexists _, _. by apply ls_register_closed.
    + eexists _, _. by apply ls_accept_closed.
    + eexists _, _. by apply ls_accepted.
  - intros ev s' Hp. inversion Hp; subst; cbn in *; subst; cbn; try done; lia.
  - intros b ev s' Hp. inversion Hp as [? ? ? _ Hq|? ? ? _ Hq|? ? ? _ Hq]; subst; inversion Hq; subst; cbn in *; subst; cbn; try lia; try done.
    pose proof (ai_shut _ _ I) as S. discriminate S.
Qed.
Print Assumptions C58_listener_ends.

(** Neither a signal nor the end of the 5 seconds nor a failure. *)
Definition smooth (e : aevent) : Prop :=
  match e with EvSignal | EvTimer | EvCloseFailed | EvListenFailed _ | EvReturned (Some _) => False | _ => True end.

Definition goes (s s' : app) : Prop := exists tr k, aexec s tr k s' /\ Forall smooth tr.

Lemma goes_refl s : goes s s.
Proof. exists [], 0%nat. split; constructor. Qed.
Lemma goes_trans s s1 s2 : goes s s1 -> goes s1 s2 -> goes s s2.
Proof.
  intros (tr & k & H & Ht) (tr' & k' & H' & Ht'). exists (tr ++ tr'), (k + k')%nat.
  split; [by eapply exec_trans|by apply Forall_app].
Qed.
Lemma goes_step s b ev s' : astep s (b, ev) s' -> Forall smooth ev -> goes s s'.
Proof.
  intros H Hs. exists ([] ++ ev). eexists. split; [eapply aexec_snoc; [constructor|exact H]|done].
Qed.

Lemma goes_listener m l t c r : running (App m l true t c) = true ->
  l = LEnter \/ l = LRegister \/ l = LAccept \/ l = LAccepted \/ l = LListen \/ l = LSend r -> r = None ->
  exists c', goes (App m l true t c) (App m (LSend None) true t c').
Proof.
  intros Hr Hl ->.
  assert (HA : forall c, goes (App m LAccept true t c) (App m (LSend None) true t c)).
  { intros c0. eapply goes_step; [apply as_listener; [done|by apply (ls_accept_closed (App m LAccept true t c0))]|by repeat constructor]. }
  assert (HR : goes (App m LRegister true t c) (App m (LSend None) true t c)).
  { eapply goes_step; [apply as_listener; [done|by apply (ls_register_closed (App m LRegister true t c))]|by repeat constructor]. }
  destruct Hl as [-> | [-> | [-> | [-> | [-> | ->]]]]].
  - exists c. eapply goes_step; [apply as_listener; [done|by apply (ls_enter_closed (App m LEnter true t c))]|by repeat constructor].
  - by exists c.
  - by exists c.
  - exists (S c). eapply goes_trans; [|apply HA].
    eapply goes_step; [apply as_listener; [done|by apply (ls_accepted (App m LAccepted true t c))]|by repeat constructor].
  - exists c. eapply goes_trans; [|apply HR].
    eapply goes_step; [apply as_listener; [done|by apply (ls_listen (App m LListen true t c))]|by repeat constructor].
  - exists c. apply goes_refl.
Qed.

Lemma goes_disconnect m l sh t c : running (App m l sh t c) = true -> goes (App m l sh t c) (App m l sh t 0).
Proof.
  intros Hr. induction c as [|c IH]; [apply goes_refl|]. eapply goes_trans; [|apply IH; done].
  eapply goes_step; [apply as_outside; [done|by apply (os_disconnect (App m l sh t (S c)) c)]|by repeat constructor].
Qed.

Lemma goes_exit_from_return l sh t c : goes (App (MReturned None) l sh t c) (App (MExited 0) l sh t c).
Proof.
  eapply goes_trans.
  - eapply goes_step; [apply as_main; [done|by apply (ps_return (App (MReturned None) l sh t c))]|by repeat constructor].
  - eapply goes_step; [apply as_main; [done|by apply (ps_exit (App MCancel l sh t c))]|by repeat constructor].
Qed.

Lemma goes_exit_from_select l c :
  l = LEnter \/ l = LRegister \/ l = LAccept \/ l = LAccepted \/ l = LListen \/ l = LSend None ->
  exists c', goes (App MSelect l true false c) (App (MExited 0) LDone true false c').
Proof.
  intros Hl. destruct (goes_listener MSelect l false c None eq_refl Hl eq_refl) as [c' Hg].
  exists c'. eapply goes_trans; [exact Hg|]. eapply goes_trans; [|apply goes_exit_from_return].
  eapply goes_step; [apply as_main; [done|by apply (ps_receive (App MSelect (LSend None) true false c') None)]|by repeat constructor].
Qed.

Lemma goes_exit_from_shutdown l c :
  l = LEnter \/ l = LRegister \/ l = LAccept \/ l = LAccepted \/ l = LListen \/ l = LSend None ->
  exists c', goes (App MShutdown l true false c) (App (MExited 0) LDone true false c').
Proof.
  intros Hl. destruct (goes_exit_from_select l 0 Hl) as [c' Hg]. exists c'.
  eapply goes_trans; [by apply goes_disconnect|]. eapply goes_trans; [|exact Hg].
  eapply goes_step; [apply as_main; [done|by apply (ps_quiet (App MShutdown l true false 0))]|by repeat constructor].
Qed.

(** A received signal can end the process cleanly: if nothing has failed and the time
    is not up, some continuation without a failure, a second signal or the end of the
    time makes it exit with 0. *)
Theorem C58_clean_exit_possible :
  forall tr n s, aexec fresh_app tr n s -> EvDelivered ∈ tr -> EvTimer ∉ tr -> EvCloseFailed ∉ tr ->
  (forall e, EvListenFailed e ∉ tr) ->
  exists tr2 k s2, aexec s tr2 k s2 /\ Forall smooth tr2 /\ EvExited 0 ∈ tr ++ tr2.
Proof.
  intros tr n s H Hd Ht Hc Hf.
  assert (Hnr : forall e, EvReturned (Some e) ∉ tr).
  { intros e Hr. destruct (C58_result _ _ _ H) as (Hres & _). destruct (Hres _ Hr) as [_ Hx].
    destruct Hx as [(e' & He & _) | [(_ & [?|?]) | (_ & ?)]]; try done. by apply Hf in He. }
  pose proof (exec_inv _ _ _ H) as I. apply in_deliveries in Hd.
  assert (Htm : a_timer s = false).
  { destruct (a_timer s) eqn:E; [|done]. exfalso. apply Ht, in_timers, (ai_timer _ _ I E). }
  pose proof (ai_main _ _ I) as Hm. pose proof (ai_shut _ _ I) as Hsh. pose proof (ai_lst _ _ I) as Hl.
  assert (Hlc : forall r, r ∈ listens tr -> r = None).
  { intros r Hr. destruct (listens_in _ _ Hr) as [[-> _]|(e & He & _)]; [done|]. by apply Hf in He. }
  assert (Hlk : returns tr = [] -> a_lst s <> LNone ->
    a_lst s = LEnter \/ a_lst s = LRegister \/ a_lst s = LAccept \/ a_lst s = LAccepted \/ a_lst s = LListen \/ a_lst s = LSend None).
  { intros Hr Hn. rewrite Hr in Hl. destruct (a_lst s) as [| | | | | |r|]; try done; try tauto.
    - do 5 right. f_equal. apply Hlc. cbn in Hl. rewrite Hl. apply elem_of_list_here.
    - by destruct Hl. }
  assert (Hln : a_main s <> MStart -> a_main s <> MKilled -> a_lst s <> LNone).
  { intros H1 H2 E. by destruct (ai_start _ _ I E). }
  assert (Hgo : exists s2, goes s s2 /\ a_main s2 = MExited 0).
  { destruct s as [m l sh t c]. cbn in *. subst t.
    destruct m as [| | | | | | |[e|]| |x|]; cbn in Hm, Hsh; try (destruct Hm as (Hr & Hd' & _); by rewrite Hd' in Hd).
    - destruct Hm as (Hr & _). subst sh.
      destruct (goes_exit_from_shutdown l c (Hlk Hr (Hln ltac:(done) ltac:(done)))) as [c' Hg].
      exists (App (MExited 0) LDone true false c'). split; [|done]. eapply goes_trans; [|exact Hg].
      eapply goes_step; [apply as_main; [done|by apply (ps_shutdown (App MQuit l false false c))]|by repeat constructor].
    - destruct Hm as (Hr & _). subst sh.
      destruct (goes_exit_from_shutdown l c (Hlk Hr (Hln ltac:(done) ltac:(done)))) as [c' Hg]. by eexists.
    - destruct Hm as (Hr & _). subst sh.
      destruct (goes_exit_from_select l c (Hlk Hr (Hln ltac:(done) ltac:(done)))) as [c' Hg]. by eexists.
    - destruct Hm as (Hr & _). exfalso. apply (Hnr e), in_returns. rewrite Hr. apply elem_of_list_here.
    - eexists. split; [apply goes_exit_from_return|done].
    - exists (App (MExited 0) l sh false c). split; [|done].
      eapply goes_step; [apply as_main; [done|by apply (ps_exit (App MCancel l sh false c))]|by repeat constructor].
    - destruct Hm as (_ & Hx & [(-> & _) | (_ & _ & e & Hr)]).
      + eexists. split; [apply goes_refl|done].
      + exfalso. apply (Hnr e), in_returns. rewrite Hr. apply elem_of_list_here. }
  destruct Hgo as (s2 & (tr2 & k & H2 & Hs2) & Hm2).
  exists tr2, k, s2. split; [done|]. split; [done|].
  pose proof (exec_inv _ _ _ (exec_trans _ _ _ _ _ _ _ H H2)) as I2. pose proof (ai_main _ _ I2) as Hx.
  rewrite Hm2 in Hx. destruct Hx as (_ & Hx & _). apply in_exits. rewrite Hx. apply elem_of_list_here.
Qed.
Print Assumptions C58_clean_exit_possible.
