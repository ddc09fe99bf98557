(** Properties C21-C24: what the delta storage answers
    (internal/infra/delta/storage.go, storagefactory.go).

    [session bsz h s] (DeltaSession.v): [s] is an open storage and [h] is the history of
    Adds and Flushes in it, across closing and opening the file.  The bound on the
    length of the history is that of the uint32 counter of the file format. *)
From Verif Require Import Base GoIO Lock Delta SpecFile SpecLock SpecDelta DeltaSession GoIOFacts
  LockFacts DeltaRecoverFacts DeltaStoreFacts DeltaHistFacts.

(** Every sequence of calls gives a session: the hypotheses below are met by all of
    them. *)
Theorem delta_calls_succeed :
  forall bsz h s, session bsz h s -> Z.of_nat (length h) < 2 ^ 32 ->
  forall c, ev_typed (event_of c) ->
  exists s', d_call bsz c s = (s', Ret tt) /\ session bsz (h ++ [event_of c]) s'.
Proof.
  intros bsz h s Hs Hl c Hc. destruct (session_inv bsz h s Hs Hl) as [E I].
  destruct (call_inv bsz c h E s I Hl Hc) as (s' & E' & Hcall & _).
  exists s'. split; [done|]. by eapply session_call.
Qed.
Print Assumptions delta_calls_succeed.

Theorem delta_sessions_exist :
  forall bsz f cs, usable f -> f_data f = [] -> Forall ev_typed (map event_of cs) ->
  Z.of_nat (length cs) <= 2 ^ 32 ->
  exists f' s0 s, d_open f = (f', Ret s0) /\ d_calls bsz cs s0 = (s, Ret tt) /\
    session bsz (map event_of cs) s.
Proof.
  intros bsz f cs (Hc & He & Hp) Hd.
  destruct (d_open_empty f) as (log & Ho); [done|done|]. cbn zeta in Ho.
  intros Ht Hl. eexists _, _. 
  assert (H : forall cs h s, session bsz h s -> Forall ev_typed (map event_of cs) ->
    Z.of_nat (length h + length cs) <= 2 ^ 32 ->
    exists s', d_calls bsz cs s = (s', Ret tt) /\ session bsz (h ++ map event_of cs) s').
  { clear. induction cs as [|c cs IH]; intros h s Hs Ht Hl; cbn [map length] in *.
    - exists s. by rewrite app_nil_r.
    - apply Forall_cons in Ht as [Hc Ht].
      destruct (delta_calls_succeed bsz h s Hs) with (c := c) as (s1 & H1 & Hs1); [lia|done|].
      destruct (IH _ _ Hs1 Ht) as (s2 & H2 & Hs2); [rewrite app_length; cbn; lia|].
      exists s2. split; [cbn [d_calls]; unfold iobind; by rewrite H1|].
      by rewrite <- app_assoc in Hs2. }
  destruct (H cs [] _ (session_new bsz f _ _ (conj Hc (conj He Hp)) Hd Ho) Ht) as (s & Hcs & Hs); [cbn; lia|].
  exists s. split; [exact Ho|]. split; [exact Hcs|exact Hs].
Qed.
Print Assumptions delta_sessions_exist.

Example delta_sessions_case :
  exists s, session 4 (map event_of
    [DAdd 43 1 10; DFlush (Shuffle _ (fun l => l) (fun l => reflexivity l)); DAdd 45 1 10; DAdd 43 2 20]) s.
Proof.
  edestruct (delta_sessions_exist 4 (open_file KOs [])) as (f' & s0 & s & _ & _ & Hs); [| | | |exists s; exact Hs].
  - split; [done|]. split; [done|]. by left.
  - done.
  - by repeat (apply Forall_cons; split; [done|]).
  - cbn. lia.
Qed.

(** * C21 *)

(** What Get answers: if the user has an Add that is not flushed yet, only those are
    consulted. *)
Theorem C21_get_exact :
  forall bsz h s, session bsz h s -> Z.of_nat (length h) < 2 ^ 32 ->
  forall user item,
  d_get s user item =
    if existsb (mentions user) (unflushed h) then last_add (unflushed h) user item
    else last_add (durable h) user item.
Proof.
  intros bsz h s Hs Hl u i. destruct (session_inv bsz h s Hs Hl) as [E I]. by apply (inv_get h E s).
Qed.
Print Assumptions C21_get_exact.

(** False: Add(+,1,10); Flush; Add(+,1,20) hides the first pair. *)
Theorem C21_get_last_op_refuted :
  exists bsz h s, session bsz h s /\
    last_add h 1 10 = Some 43 /\ d_get s 1 10 = None.
Proof.
  edestruct (delta_sessions_exist 4096 (open_file KOs [])
    [DAdd 43 1 10; DFlush (Shuffle _ (fun l => l) (fun l => reflexivity l)); DAdd 43 1 20])
    as (f' & s0 & s & _ & _ & Hs).
  - split; [done|]. split; [done|]. by left.
  - done.
  - by repeat (apply Forall_cons; split; [done|]).
  - cbn. lia.
  - eexists 4096%nat, _, s. split; [exact Hs|]. split; [done|].
    rewrite (C21_get_exact _ _ _ Hs) by (cbn; lia). done.
Qed.
Print Assumptions C21_get_last_op_refuted.

(** The claim holds for exactly the pairs that are not hidden that way. *)
Theorem C21_get_last_op_partial :
  forall bsz h s, session bsz h s -> Z.of_nat (length h) < 2 ^ 32 ->
  forall user item,
  d_get s user item = last_add h user item <->
  ~ (existsb (mentions user) (unflushed h) = true /\ last_add (unflushed h) user item = None /\
     last_add (durable h) user item <> None).
Proof.
  intros bsz h s Hs Hl u i. rewrite (C21_get_exact bsz h s Hs Hl), (last_add_split h u i).
  pose proof (not_mentioned_last u i (unflushed h)) as Hn. unfold mentioned in Hn.
  destruct (existsb (mentions u) (unflushed h)).
  - destruct (last_add (unflushed h) u i) as [o|]; [split; [by intros _ (_ & ? & _)|done]|].
    split.
    + intros E (_ & _ & H). by rewrite <- E in H.
    + intros H. destruct (last_add (durable h) u i) eqn:E; [|done]. exfalso. by apply H.
  - rewrite Hn by done. split; [by intros _ (? & _)|done].
Qed.
Print Assumptions C21_get_last_op_partial.

(** In particular right after a Flush and for pairs not flushed yet. *)
Theorem C21_get_after_flush_partial :
  forall bsz h s, session bsz h s -> Z.of_nat (length h) < 2 ^ 32 ->
  forall user item, unflushed h = [] \/ last_add (unflushed h) user item <> None ->
  d_get s user item = last_add h user item.
Proof.
  intros bsz h s Hs Hl u i H. apply (C21_get_last_op_partial bsz h s Hs Hl).
  intros (Hm & Hn & _). destruct H as [H | H]; [|done]. by rewrite H in Hm.
Qed.
Print Assumptions C21_get_after_flush_partial.

Example C21_case :
  let h := [EvAdd 43 1 10; EvFlush; EvAdd 43 2 20; EvAdd 45 2 20] in
  durable h = [EvAdd 43 1 10; EvFlush] /\ unflushed h = [EvAdd 43 2 20; EvAdd 45 2 20] /\
  last_add h 1 10 = Some 43 /\ last_add h 2 20 = Some 45 /\ last_add h 2 10 = None /\
  exists s, session 16 h s /\ d_get s 1 10 = Some 43 /\ d_get s 2 20 = Some 45 /\ d_get s 2 10 = None.
Proof.
  cbn zeta. do 5 (split; [done|]).
  edestruct (delta_sessions_exist 16 (open_file KBuf [])
    [DAdd 43 1 10; DFlush (Shuffle _ (fun l => l) (fun l => reflexivity l)); DAdd 43 2 20; DAdd 45 2 20])
    as (f' & s0 & s & _ & _ & Hs).
  - split; [done|]. split; [done|]. right. cbn. lia.
  - done.
  - by repeat (apply Forall_cons; split; [done|]).
  - cbn. lia.
  - exists s. split; [exact Hs|]. rewrite !(C21_get_exact _ _ _ Hs) by (cbn; lia). done.
Qed.

(** * C22 *)
Theorem C22_close_and_reopen :
  forall bsz h s, session bsz h s -> Z.of_nat (length h) + 1 < 2 ^ 32 ->
  forall sh : new_order,
  exists s', d_close bsz sh s = (s', Ret tt) /\ f_closed (ds_file s') = true /\
  forall f, usable f -> f_data f = f_data (ds_file s') ->
  exists f' t, d_open f = (f', Ret t) /\ session bsz (h ++ [EvFlush]) t /\
    forall user item, d_get t user item = last_add h user item.
Proof.
  intros bsz h s Hs Hl sh. destruct (session_inv bsz h s Hs ltac:(lia)) as [E I].
  destruct (close_inv bsz sh h E s I ltac:(lia)) as (s' & Hc & Hd & Hcl & _).
  exists s'. split; [done|]. split; [done|]. intros f Hu Hfd.
  destruct (d_open_image f (E ++ visit sh (ds_new s))) as (p & _ & Ho).
  { by destruct Hu as (? & ? & _). }
  { apply Forall_app. split; [apply I|by apply (visit_typed h E)]. }
  { pose proof (di_total _ _ _ I). pose proof (di_bound _ _ _ I). rewrite app_length, visit_length. lia. }
  { by rewrite Hfd. }
  cbn zeta in Ho. eexists _, _. split; [exact Ho|].
  assert (Ht : session bsz (h ++ [EvFlush]) (DStore (group (E ++ visit sh (ds_new s))) ∅
     (Z.of_nat (length (E ++ visit sh (ds_new s)))) 0
     (File (f_kind f) (img 1 (E ++ visit sh (ds_new s))) p false [] (f_log f ++ [WSet 9 1])))).
  { by eapply session_reopen. }
  split; [exact Ht|]. intros u i.
  rewrite (C21_get_after_flush_partial bsz _ _ Ht).
  - rewrite last_add_app. done.
  - rewrite app_length. cbn [length]. lia.
  - left. apply unflushed_flush.
Qed.
Print Assumptions C22_close_and_reopen.

Example C22_case :
  exists s, session 16 [EvAdd 43 1 10; EvFlush; EvAdd 43 1 20] s /\ d_get s 1 10 = None /\
    last_add [EvAdd 43 1 10; EvFlush; EvAdd 43 1 20] 1 10 = Some 43.
Proof.
  edestruct (delta_sessions_exist 16 (open_file KBuf [])
    [DAdd 43 1 10; DFlush (Shuffle _ (fun l => l) (fun l => reflexivity l)); DAdd 43 1 20])
    as (f' & s0 & s & _ & _ & Hs).
  - split; [done|]. split; [done|]. right. cbn. lia.
  - done.
  - by repeat (apply Forall_cons; split; [done|]).
  - cbn. lia.
  - exists s. split; [exact Hs|]. rewrite !(C21_get_exact _ _ _ Hs) by (cbn; lia). done.
Qed.

(** * C23 *)
Theorem C23_counts_after_flush :
  forall bsz h s, session bsz h s -> Z.of_nat (length h) < 2 ^ 32 -> unflushed h = [] ->
  exists recs, Forall (fun r => length r = 18%nat) recs /\
    f_data (ds_file s) = delta_image 1 recs /\
    d_total_count s = Z.of_nat (length recs) /\ d_file_size s = Z.of_nat (length (f_data (ds_file s))).
Proof.
  intros bsz h s Hs Hl Hu. destruct (session_inv bsz h s Hs Hl) as [E I].
  exists (map rec_of E). split; [apply recs_len|]. split; [apply I|].
  assert (Hn : ds_new s = ∅).
  { apply map_empty. intros u. pose proof (di_nusers _ _ _ I u) as Hx. rewrite Hu in Hx. cbn in Hx.
    destruct (ds_new s !! u); [|done]. by destruct Hx as [Hx _]; discriminate Hx; eauto. }
  pose proof (di_total _ _ _ I) as Ht. rewrite Hn in Ht. change (length (pend ∅)) with 0%nat in Ht.
  unfold d_total_count, d_file_size. split; [rewrite map_length; lia|].
  rewrite (di_data _ _ _ I), img_length, Ht. unfold delta_entry_size, delta_header_size.
  change delta_prefix_len with 8. lia.
Qed.
Print Assumptions C23_counts_after_flush.

(** Closing and opening again changes neither. *)
Theorem C23_counts_survive_reopen :
  forall bsz h s, session bsz h s -> Z.of_nat (length h) + 1 < 2 ^ 32 ->
  forall sh s' f f' t, d_close bsz sh s = (s', Ret tt) -> usable f -> f_data f = f_data (ds_file s') ->
  d_open f = (f', Ret t) ->
  d_total_count t = d_total_count s /\ d_file_size t = d_file_size s /\
  d_file_size t = Z.of_nat (length (f_data f)).
Proof.
  intros bsz h s Hs Hl sh s' f f' t Hc Hu Hd Ho.
  destruct (session_inv bsz h s Hs ltac:(lia)) as [E I].
  pose proof (reopen_inv bsz sh h E s s' f f' t I ltac:(rewrite app_length; cbn; lia) Hc Hu Hd Ho) as It.
  destruct (close_inv bsz sh h E s I ltac:(lia)) as (s1 & Hc1 & Hd1 & _).
  rewrite Hc in Hc1. injection Hc1 as <-.
  pose proof (di_total _ _ _ I) as H1. pose proof (di_total _ _ _ It) as H2.
  assert (Hp : pend (ds_new t) = []).
  { assert (ds_new t = ∅) as ->; [|done]. apply map_empty. intros u. pose proof (di_nusers _ _ _ It u) as Hx.
    rewrite unflushed_flush in Hx. destruct (ds_new t !! u); [|done].
    by destruct Hx as [Hx _]; discriminate Hx; eauto. }
  rewrite Hp, app_length, visit_length in H2. cbn [length] in H2.
  assert (ds_total t = ds_total s) as Et by lia.
  unfold d_total_count, d_file_size. rewrite Et. split; [done|]. split; [done|].
  rewrite Hd, Hd1, img_length, app_length, visit_length. unfold delta_entry_size, delta_header_size.
  change delta_prefix_len with 8. lia.
Qed.
Print Assumptions C23_counts_survive_reopen.

Example C23_case :
  exists s, session 16 [EvAdd 43 1 10; EvAdd 45 1 10; EvAdd 43 2 10; EvFlush; EvAdd 43 1 10; EvFlush] s /\
    d_total_count s = 3 /\ d_file_size s = 68.
Proof.
  edestruct (delta_sessions_exist 16 (open_file KBuf [])
    [DAdd 43 1 10; DAdd 45 1 10; DAdd 43 2 10; DFlush (Shuffle _ (fun l => l) (fun l => reflexivity l));
     DAdd 43 1 10; DFlush (Shuffle _ (fun l => l) (fun l => reflexivity l))])
    as (f' & s0 & s & Ho & Hc & Hs).
  - split; [done|]. split; [done|]. right. cbn. lia.
  - done.
  - by repeat (apply Forall_cons; split; [done|]).
  - cbn. lia.
  - exists s. split; [exact Hs|]. clear Hs.
    vm_compute in Ho. injection Ho as <- <-. vm_compute in Hc. injection Hc as <-. by vm_compute.
Qed.

(** * C24 *)
Theorem C24_user_count :
  forall bsz h s, session bsz h s -> Z.of_nat (length h) < 2 ^ 32 ->
  d_user_count s = Z.of_nat (size (users_of h)).
Proof.
  intros bsz h s Hs Hl. destruct (session_inv bsz h s Hs Hl) as [E I]. by apply (inv_user_count h E).
Qed.
Print Assumptions C24_user_count.

Example C24_case :
  size (users_of [EvAdd 43 1 10; EvAdd 45 1 20; EvFlush; EvAdd 43 2 10; EvAdd 45 1 30]) = 2%nat /\
  exists s, session 16 [EvAdd 43 1 10; EvAdd 45 1 20; EvFlush; EvAdd 43 2 10; EvAdd 45 1 30] s /\
    d_user_count s = 2.
Proof.
  split; [by vm_compute|].
  edestruct (delta_sessions_exist 16 (open_file KBuf [])
    [DAdd 43 1 10; DAdd 45 1 20; DFlush (Shuffle _ (fun l => l) (fun l => reflexivity l)); DAdd 43 2 10; DAdd 45 1 30])
    as (f' & s0 & s & _ & _ & Hs).
  - split; [done|]. split; [done|]. right. cbn. lia.
  - done.
  - by repeat (apply Forall_cons; split; [done|]).
  - cbn. lia.
  - exists s. split; [exact Hs|]. rewrite (C24_user_count _ _ _ Hs) by (cbn; lia). by vm_compute.
Qed.
