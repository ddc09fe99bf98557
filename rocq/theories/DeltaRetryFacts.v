(** Proofs about repeating a Close of the delta storage that failed. *)
From Verif Require Import Base GoIO Lock Delta SpecFile SpecLock SpecDelta GoIOFacts FileBufferFacts
  CodecFacts LockFacts DeltaFacts DeltaRecoverFacts DeltaStoreFacts DeltaSession DeltaHistFacts
  PropDeltaStore PropDeltaFault FaultyFacts IndexFaultFacts DeltaHonestFacts DeltaFlakyFacts StartFilesFacts.

(** A storage reached with Flush and Close calls that may fail, as long as no failing
    write left entries in the file ([nothing_torn]) and the file was not closed.  [h] is
    what was done by the calls that succeeded, and by the Flush of a Close that failed
    afterwards. *)
Inductive retried (bsz : nat) : list devent -> dstore -> Prop :=
| retried_session h s : session bsz h s -> retried bsz h s
| retried_call h s c s' :
    retried bsz h s -> ev_typed (event_of c) -> d_call bsz c (failing [] s) = (s', Ret tt) ->
    retried bsz (h ++ [event_of c]) s'
| retried_flush h s env sh s' e :
    retried bsz h s -> nothing_torn env -> d_flush bsz sh (failing env s) = (s', Err e) ->
    retried bsz h s'
| retried_close_unflushed h s env sh s1 e1 s' e :
    retried bsz h s -> nothing_torn env -> d_flush bsz sh (failing env s) = (s1, Err e1) ->
    d_close bsz sh (failing env s) = (s', Err e) -> retried bsz h s'
| retried_close h s env sh s1 s' e :
    retried bsz h s -> d_flush bsz sh (failing env s) = (s1, Ret tt) ->
    d_close bsz sh (failing env s) = (s', Err e) -> f_closed (ds_file s') = false ->
    retried bsz (h ++ [EvFlush]) s'.

Lemma flushed_pos t F f : (f_pos (flushed_file t F f) <= length (f_data (flushed_file t F f)))%nat.
Proof.
  unfold flushed_file. set (g := fset_pos _ _).
  assert (Hg : (f_pos g <= length (f_data g))%nat) by done. clearbody g.
  rewrite fput_data by done. rewrite splice_length. rewrite fput_pos. lia.
Qed.

(** A Flush that succeeds does what it does when nothing fails. *)
Lemma flush_succeeds_quiet bsz sh s s' :
  f_closed (ds_file s) = false -> can_seek (ds_file s) 8 -> Forall ent_typed (visit sh (ds_new s)) ->
  d_flush bsz sh s = (s', Ret tt) ->
  d_flush bsz sh (quiet_store s) = (quiet_store s', Ret tt) /\ f_closed (ds_file s') = false /\
  (f_pos (ds_file s') <= length (f_data (ds_file s')))%nat.
Proof.
  intros Hc Hs Ht H. rewrite d_flush_ok; [|by split|by destruct Hs; [left|right]|done].
  unfold d_flush, iobind, iomaperr in H.
  destruct (flush_header_faulty bsz s Hc Hs) as (s1 & Hc1 & [[E1 Hq1] | (e & j & E1 & _)]);
    rewrite E1 in H; [|done].
  assert (Hn1 : ds_new s1 = ds_new s) by (by apply (f_equal ds_new) in Hq1).
  assert (Hm1 : ds_cache s1 = ds_cache s) by (by apply (f_equal ds_cache) in Hq1).
  assert (Ht1 : ds_total s1 = ds_total s) by (by apply (f_equal ds_total) in Hq1).
  assert (Hf1 : quiet (ds_file s1) = hdr_file (ds_total s) (quiet (ds_file s))) by (by apply (f_equal ds_file) in Hq1).
  destruct (flush_entries_faulty bsz sh s1 Hc1) as (s2 & Hc2 & [[E2 Hq2] | (e & j & E2 & _)]);
    [by rewrite Hn1| |]; rewrite E2 in H; [|done].
  injection H as <-.
  assert (Hq : quiet (ds_file s2) = flushed_file (ds_total s) (visit sh (ds_new s)) (quiet (ds_file s))).
  { apply (f_equal ds_file) in Hq2. cbn [quiet_store ds_file] in Hq2. rewrite Hq2, Hn1.
    change (f_data (ds_file s1)) with (f_data (quiet (ds_file s1))). by rewrite Hf1. }
  split; [|split; [done|]].
  - unfold quiet_store. f_equal. rewrite Hq.
    apply (f_equal (fun s => (ds_cache s, ds_new s, ds_total s, ds_unflushed s))) in Hq2. cbn in Hq2.
    injection Hq2 as -> -> -> ->. by rewrite Hm1, Hn1, Ht1.
  - pose proof (flushed_pos (ds_total s) (visit sh (ds_new s)) (quiet (ds_file s))) as Hp. rewrite <- Hq in Hp. exact Hp.
Qed.

(** Flush leaves the file open, succeeds or reports an error. *)
Lemma flush_ends bsz sh s s' o :
  f_closed (ds_file s) = false -> can_seek (ds_file s) 8 -> Forall ent_typed (visit sh (ds_new s)) ->
  d_flush bsz sh s = (s', o) -> f_closed (ds_file s') = false /\ (o = Ret tt \/ exists e, o = Err e).
Proof.
  intros Hc Hs Ht H. unfold d_flush, iobind, iomaperr in H.
  destruct (flush_header_faulty bsz s Hc Hs) as (s1 & Hc1 & [[E1 Hq1] | (e & j & E1 & _)]);
    rewrite E1 in H; [|injection H as <- <-; eauto].
  assert (Hn1 : ds_new s1 = ds_new s) by (by apply (f_equal ds_new) in Hq1).
  destruct (flush_entries_faulty bsz sh s1 Hc1) as (s2 & Hc2 & [[E2 Hq2] | (e & j & E2 & _)]);
    [by rewrite Hn1| |]; rewrite E2 in H; injection H as <- <-; eauto.
Qed.

Lemma as_session_env bsz h s t env : as_session bsz h s t -> as_session bsz h (failing env s) t.
Proof. intros [Hs A R]. split; [done|by apply failing_same|exact R]. Qed.

Lemma as_session_file bsz h s t f : as_session bsz h s t -> same_records f (ds_file s) ->
  as_session bsz h (DStore (ds_cache s) (ds_new s) (ds_total s) (ds_unflushed s) f) t.
Proof.
  intros [Hs A (Hc & H8 & H14 & Hl)] (Rc & R8 & R14 & Rl). split; [done|by split; apply A|].
  split; [done|]. split; [cbn [ds_file]; congruence|]. split; [cbn [ds_file]; congruence|done].
Qed.

(** Everything is written, whatever came before. *)
Lemma flushed_as_session bsz h s t env sh s1 : as_session bsz h s t -> Z.of_nat (length h) < 2 ^ 32 ->
  d_flush bsz sh (failing env s) = (s1, Ret tt) ->
  d_flush bsz sh (failing [] s) = (quiet_store s1, Ret tt) /\
  (f_pos (ds_file s1) <= length (f_data (ds_file s1)))%nat /\
  exists t', as_session bsz (h ++ [EvFlush]) s1 t'.
Proof.
  intros HS Hl H. pose proof HS as [Hs A (Rc & R8 & R14 & Rl)].
  destruct (session_inv bsz h t Hs Hl) as [E I].
  destruct (flush_succeeds_quiet bsz sh (failing env s) s1) as (Hq & Hc1 & Hp1); [done|by right; cbn; lia| |done|].
  { change (ds_new (failing env s)) with (ds_new s). rewrite (sa_new _ _ A). by apply (visit_typed h E t sh I). }
  assert (Hq' : d_flush bsz sh (failing [] s) = (quiet_store s1, Ret tt)).
  { rewrite <- Hq. unfold failing, quiet_store, quiet. cbn [ds_file f_kind f_data f_pos f_closed f_log ds_cache ds_new ds_total ds_unflushed].
    by rewrite Rc. }
  split; [done|]. split; [done|].
  destruct (call_as_session bsz h s t (DFlush sh) (quiet_store s1) HS Hl) as [t' Ht']; [done|exact Hq'|].
  exists t'. destruct Ht' as [Hs' A' R']. split; [done|by split; apply A'|exact R'].
Qed.

(** What happens to the lock byte leaves the records alone. *)
Lemma unlock_records b f f' : f_closed f' = false -> (14 <= length (f_data f))%nat ->
  f_data f' = f_data f \/ f_data f' = splice 9 [lock_bit b] (f_data f) -> same_records f' f.
Proof.
  intros Hc Hl Hd. split; [done|]. destruct Hd as [-> | ->]; [done|]. split; [|split].
  - apply list_eq. intros i. destruct (decide (i < 8)%nat).
    + rewrite !lookup_take, splice_lookup, decide_True by lia. by rewrite lookup_app_l by lia.
    + by rewrite !lookup_take_ge by lia.
  - apply list_eq. intros i. rewrite !lookup_drop, splice_lookup, !decide_False by (cbn; lia). done.
  - rewrite splice_length. lia.
Qed.

Lemma write_locked_open off b f : f_closed f = false -> f_closed (fst (write_locked_at off b f)) = false.
Proof.
  assert (Hn : forall g, f_closed g = false -> f_closed (snd (next_fault g)) = false).
  { intros g Hg. unfold next_fault. by destruct (f_env g). }
  apply (kp_write_locked (fun f => f_closed f = false)).
  - intros n g Hg. unfold fread. rewrite Hg. specialize (Hn g Hg). destruct (next_fault g) as [[|k] g1]; [|exact Hn].
    by destruct (f_kind g1), n, (drop (f_pos g1) (f_data g1)).
  - intros bs g Hg. unfold fwrite. rewrite Hg. specialize (Hn g Hg). destruct (next_fault g) as [[|k] g1]; cbn zeta;
      rewrite ?Nat.ltb_irrefl; cbn [fst]; by rewrite fput_closed.
  - intros o w g Hg. unfold fseek. rewrite Hg. cbn zeta. by destruct (match f_kind g with KOs => _ | KBuf => _ end).
  - intros n g Hg. unfold ftruncate. rewrite Hg. specialize (Hn g Hg). destruct (next_fault g) as [[|k] g1]; [|exact Hn].
    by destruct (_ <? _).
Qed.

(** A Close whose Flush has written everything: it fails to unlock the file and leaves
    it open, or the file is unlocked and closed. *)
Lemma close_after_flush bsz sh s s1 s' o : f_closed (ds_file s1) = false -> (14 <= length (f_data (ds_file s1)))%nat ->
  (f_pos (ds_file s1) <= length (f_data (ds_file s1)))%nat ->
  d_flush bsz sh s = (s1, Ret tt) -> d_close bsz sh s = (s', o) ->
  (exists e f2, o = Err e /\ f_closed (ds_file s') = false /\ same_records f2 (ds_file s1) /\
    s' = DStore (ds_cache s1) (ds_new s1) (ds_total s1) (ds_unflushed s1) f2) \/
  (f_closed (ds_file s') = true /\ f_data (ds_file s') = splice 9 [0] (f_data (ds_file s1)) /\
   (o = Ret tt \/ exists e, o = Err e)).
Proof.
  intros Hc1 Hl1 Hp E1 H.
  assert (Eq : d_close bsz sh s =
    (run iomaperr (fun _ => EMsg "failed to lock the file") (on_dfile (write_locked_at (Z.of_nat 9) false));
     iomaperr (fun _ => EMsg "failed to close the underlying file") (on_dfile fclose)) s1).
  { unfold d_close, iobind at 1, iomaperr at 1. rewrite E1. reflexivity. }
  rewrite Eq in H. clear Eq. unfold iobind, on_dfile, iomaperr in H.
  destruct (write_locked_faulty 9 false (ds_file s1) Hc1) as (f2 & [(E2 & Hc2 & Hd2) | (e & E2 & Hd2)]); [by right|lia| |].
  - rewrite E2 in H. cbn [ds_file] in H. pose proof (fclose_data f2) as Hfd. pose proof (fclose_closes f2 Hc2) as Hfc.
    destruct (fclose_ends f2) as [(f4 & E4) | (f4 & e & E4)]; rewrite E4 in *; cbn [fst] in Hfd, Hfc;
      injection H as <- <-; right; cbn [ds_file]; (split; [done|]; split; [by rewrite Hfd, Hd2|]); eauto.
  - rewrite E2 in H. injection H as <- <-. left. eexists _, f2. split; [done|].
    assert (Hc2 : f_closed f2 = false).
    { pose proof (write_locked_open (Z.of_nat 9) false (ds_file s1) Hc1) as Ho. by rewrite E2 in Ho. }
    split; [done|]. split; [by eapply unlock_records|done].
Qed.

Lemma close_unflushed bsz sh s s1 e s' o : d_flush bsz sh s = (s1, Err e) -> d_close bsz sh s = (s', o) ->
  s' = s1 /\ exists e', o = Err e'.
Proof.
  intros E1 H. unfold d_close, iobind at 1, iomaperr at 1 in H. rewrite E1 in H. injection H as <- <-. eauto.
Qed.

Lemma retried_as_session bsz h s : retried bsz h s -> Z.of_nat (length h) < 2 ^ 32 -> (6 <= bsz)%nat ->
  exists t, as_session bsz h s t.
Proof.
  assert (Hfail : forall h s env sh s' e, (6 <= bsz)%nat -> nothing_torn env -> d_flush bsz sh (failing env s) = (s', Err e) ->
    (exists t, as_session bsz h s t) -> exists t, as_session bsz h s' t).
  { intros h0 s0 env sh s' e Hb He Hf [t [Hs A R]]. exists t. split; [done| |by eapply failed_records].
    eapply same_answers_trans; [by eapply failed_flush_same|]. by apply failing_same. }
  induction 1 as [h s Hs | h s c s' _ IH Ht Hc | h s env sh s' e _ IH He Hf | h s env sh s1 e1 s' e _ IH He Hf Hc
    | h s env sh s1 s' e _ IH Hf Hc Ho]; intros Hl Hb.
  - exists s. split; [done|by split|]. destruct (session_len bsz h s Hs Hl) as [??]. done.
  - rewrite app_length in Hl. destruct IH as [t Ht']; [lia|done|].
    eapply call_as_session; [done|lia|done|done].
  - eapply Hfail; [done|done|done|by apply IH].
  - destruct (close_unflushed _ _ _ _ _ _ _ Hf Hc) as [-> _]. eapply Hfail; [done|done|done|by apply IH].
  - rewrite app_length in Hl. destruct IH as [t Ht]; [lia|done|].
    destruct (flushed_as_session bsz h s t env sh s1 Ht ltac:(lia) Hf) as (_ & Hp & t' & Ht').
    exists t'. pose proof Ht' as [_ _ (Hc1 & _ & _ & Hl1)].
    destruct (close_after_flush bsz sh _ s1 s' _ Hc1 Hl1 Hp Hf Hc) as [(e' & f2 & _ & _ & R2 & ->) | (Hx & _)]; [|congruence].
    by apply as_session_file.
Qed.

(** Once the file is closed it holds what a Close that succeeds writes. *)
Lemma closed_saved bsz h s t env sh s' o : as_session bsz h s t -> Z.of_nat (length h) < 2 ^ 32 ->
  d_close bsz sh (failing env s) = (s', o) -> f_closed (ds_file s') = true ->
  exists s0, d_close bsz sh (failing [] s) = (s0, Ret tt) /\ f_data (ds_file s') = f_data (ds_file s0) /\
    (o = Ret tt \/ exists e, o = Err e).
Proof.
  intros HS Hl H Hcl. destruct (close_as_session bsz h s t sh HS Hl) as (s0 & t0 & H0 & _ & _ & Hc0).
  exists s0. split; [done|].
  destruct (d_flush bsz sh (failing env s)) as [s1 o1] eqn:E1.
  pose proof HS as [Hs A (Rc & _ & _ & Rl)]. destruct (session_inv bsz h t Hs Hl) as [E I].
  destruct (flush_ends bsz sh (failing env s) s1 o1) as [Hc1 [-> | [e1 ->]]]; [done|by right; cbn; lia| |done| |].
  - change (ds_new (failing env s)) with (ds_new s). rewrite (sa_new _ _ A). by apply (visit_typed h E t sh I).
  - destruct (flushed_as_session bsz h s t env sh s1 HS Hl E1) as (Hq & Hp & t' & [_ _ (_ & _ & _ & Hl1)]).
    destruct (close_after_flush bsz sh _ s1 s' o Hc1 Hl1 Hp E1 H) as [(e' & f2 & _ & Hx & _) | (_ & Hd & Ho)]; [congruence|].
    destruct (close_after_flush bsz sh _ (quiet_store s1) s0 _ Hc1 Hl1 Hp Hq H0) as [(e' & f2 & Hx & _) | (_ & Hd0 & _)]; [done|].
    split; [|done]. rewrite Hd, Hd0. done.
  - destruct (close_unflushed _ _ _ _ _ _ _ E1 H) as [-> _]. congruence.
Qed.
