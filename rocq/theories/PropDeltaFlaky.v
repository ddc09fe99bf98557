(** Delta storage, Flush calls that fail: more about C62. *)
From Verif Require Import Base GoIO Lock Delta SpecFile SpecLock SpecDelta GoIOFacts FileBufferFacts
  CodecFacts LockFacts DeltaFacts DeltaRecoverFacts DeltaStoreFacts DeltaSession DeltaHistFacts
  PropDeltaStore PropDeltaFault DeltaFlakyFacts.

(** Until the storage is closed nobody sees that a Flush failed: whatever the storage
    and its file, whichever writes fail and with how much written, all answers stay
    as they were. *)
Theorem C62_failed_flush_keeps_answers :
  forall bsz sh s s1 e, d_flush bsz sh s = (s1, Err e) ->
  (forall user item, d_get s1 user item = d_get s user item) /\
  d_total_count s1 = d_total_count s /\ d_user_count s1 = d_user_count s /\ d_file_size s1 = d_file_size s.
Proof.
  intros bsz sh s s1 e H. apply failed_flush_same in H as A.
  split; [intros u i; by apply same_answers_get|]. split; [apply A|]. split; [by apply same_answers_users|].
  unfold d_file_size, d_total_count. by rewrite (sa_total _ _ A).
Qed.
Print Assumptions C62_failed_flush_keeps_answers.

(** Any number of failed Flush calls, mixed with Add and Flush calls that succeed, is
    harmless as long as no failing write left entries in the file: the failure was
    in the header (some of its bytes may be written), or the first write of the entries
    wrote nothing.  [flaky bsz h s]: [s] is reached so and [h] is what was done by the
    calls that succeeded. *)
Theorem C62_nothing_torn_partial :
  forall bsz h s, flaky bsz h s -> Z.of_nat (length h) + 1 < 2 ^ 32 -> (6 <= bsz)%nat ->
  (exists t, session bsz h t /\ (forall user item, d_get s user item = d_get t user item) /\
     d_total_count s = d_total_count t /\ d_user_count s = d_user_count t /\ d_file_size s = d_file_size t) /\
  (forall sh, exists s', d_close bsz sh (failing [] s) = (s', Ret tt) /\ f_closed (ds_file s') = true /\
     forall f, usable f -> f_data f = f_data (ds_file s') ->
     exists f' t, d_open f = (f', Ret t) /\ session bsz (h ++ [EvFlush]) t /\
       forall user item, d_get t user item = last_add h user item).
Proof.
  intros bsz h s Hf Hl Hb. destruct (flaky_as_session bsz h s Hf ltac:(lia) Hb) as [t Ht].
  pose proof (as_answers _ _ _ _ Ht) as A. split.
  - exists t. split; [apply Ht|]. split; [intros u i; by apply same_answers_get|].
    split; [apply A|]. split; [by apply same_answers_users|].
    unfold d_file_size, d_total_count. by rewrite (sa_total _ _ A).
  - intros sh. destruct (close_as_session bsz h s t sh Ht ltac:(lia)) as (s' & t' & Hs' & Ht' & Hd & Hc).
    exists s'. split; [done|]. split; [done|]. intros f Hu Hfd.
    destruct (C22_close_and_reopen bsz h t (as_session_of _ _ _ _ Ht) Hl sh) as (t2 & Ht2 & _ & Hop).
    rewrite Ht' in Ht2. injection Ht2 as <-. apply Hop; [done|]. by rewrite Hfd.
Qed.
Print Assumptions C62_nothing_torn_partial.

(** The entries cannot be written, something is added, the header is torn, and then all
    goes well. *)
Example C62_flaky_case :
  let sh := Shuffle _ (fun l : list (Z * list item_delta) => l) (fun l => reflexivity l) in
  exists s, flaky 64 [EvAdd 43 1 10; EvAdd 45 2 20; EvFlush] s /\
    f_data (ds_file s) = delta_image 1 [op_record 43 1 10; op_record 45 2 20] /\
    d_user_count s = 2 /\ length (default [] (ds_cache s !! 1)) = 2%nat.
Proof.
  cbn zeta.
  edestruct (delta_sessions_exist 64 (open_file KOs []) [DAdd 43 1 10]) as (f' & s0 & s & Ho & Hc & Hs).
  - split; [done|]. split; [done|]. by left.
  - done.
  - by repeat (apply Forall_cons; split; [done|]).
  - cbn. lia.
  - vm_compute in Ho; injection Ho as <- <-; vm_compute in Hc; injection Hc as <-.
    set (sh := Shuffle _ (fun l : list (Z * list item_delta) => l) (fun l => reflexivity l)).
    apply flaky_session in Hs. cbn [map event_of] in Hs.
    eapply (flaky_failed 64 _ _ [FOk; FErr 0] sh) in Hs; [|by right; exists []|by vm_compute].
    eapply (flaky_call 64 _ _ (DAdd 45 2 20)) in Hs; [|done|by vm_compute].
    eapply (flaky_failed 64 _ _ [FErr 3] sh) in Hs; [|by left; exists 3%nat, []|by vm_compute].
    eapply (flaky_call 64 _ _ (DFlush sh)) in Hs; [|done|vm_compute; reflexivity].
    cbn [app] in Hs. eexists. split; [exact Hs|]. split; [by vm_compute|]. split; by vm_compute.
Qed.
