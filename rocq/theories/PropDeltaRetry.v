(** Property C127: repeating a Close of the delta storage that failed. *)
From Verif Require Import Base GoIO Lock Delta SpecFile SpecLock SpecDelta GoIOFacts FileBufferFacts
  CodecFacts LockFacts DeltaFacts DeltaRecoverFacts DeltaStoreFacts DeltaSession DeltaHistFacts
  PropDeltaStore PropDeltaFault DeltaFlakyFacts ClosedFacts DeltaRetryFacts.

(** False: a Close whose write of the entries breaks off can be repeated and then
    reports success, but the entries are behind a torn one, and opening the file gives
    something else. *)
Theorem C127_repeated_close_refuted :
  ~ (forall bsz h s env sh s1 e sh' s2 f f' t, session bsz h s -> Z.of_nat (length h) < 2 ^ 32 ->
     d_close bsz sh (failing env s) = (s1, Err e) ->
     d_close bsz sh' (failing [] s1) = (s2, Ret tt) ->
     usable f -> f_data f = f_data (ds_file s2) -> d_open f = (f', Ret t) ->
     forall user item, d_get t user item = last_add h user item).
Proof.
  intros H. set (sh := Shuffle _ (fun l : list (Z * list item_delta) => l) (fun l => reflexivity l)).
  destruct (delta_sessions_exist 64 (open_file KOs []) [DAdd 43 1 10]) as (f' & s0 & s & Ho & Hc & Hs).
  - split; [done|]. split; [done|]. by left.
  - done.
  - by repeat (apply Forall_cons; split; [done|]).
  - cbn. lia.
  - vm_compute in Ho; injection Ho as <- <-; vm_compute in Hc; injection Hc as <-.
    match type of Hs with session _ ?h ?s =>
      set (s1 := fst (d_close 64 sh (failing [FOk; FErr 5] s)));
      set (s2 := fst (d_close 64 sh (failing [] s1)));
      set (f := open_file KOs (f_data (ds_file s2)));
      set (t := match d_open f with (_, Ret t) => t | _ => s end);
      specialize (H 64%nat h s [FOk; FErr 5] sh s1 (EMsg "failed to flush cache") sh s2 f (fst (d_open f)) t Hs)
    end.
    assert (Hx : d_get t 1 10 = last_add [EvAdd 43 1 10] 1 10).
    { apply H; try by vm_compute. split; [done|]. split; [done|]. by left. }
    by vm_compute in Hx.
Qed.
Print Assumptions C127_repeated_close_refuted.

(** What is true: as long as no failing write left entries in the file, Flush and Close
    can fail and be repeated any number of times, with Add calls between them, and the
    storage goes on answering like one where nothing failed.  The next Close with which
    nothing fails reports success, and opening the file then gives everything that was
    added.  What a failed Close that could not unlock the file wrote counts as flushed
    ([retried]: the [EvFlush] in the history). *)
Theorem C127_repeated_close_partial :
  forall bsz h s, retried bsz h s -> Z.of_nat (length h) + 1 < 2 ^ 32 -> (6 <= bsz)%nat ->
  (exists t, session bsz h t /\ (forall user item, d_get s user item = d_get t user item) /\
     d_total_count s = d_total_count t /\ d_user_count s = d_user_count t /\ d_file_size s = d_file_size t) /\
  (forall sh, exists s', d_close bsz sh (failing [] s) = (s', Ret tt) /\ f_closed (ds_file s') = true /\
     forall f, usable f -> f_data f = f_data (ds_file s') ->
     exists f' t, d_open f = (f', Ret t) /\ session bsz (h ++ [EvFlush]) t /\
       forall user item, d_get t user item = last_add h user item).
Proof.
  intros bsz h s Hf Hl Hb. destruct (retried_as_session bsz h s Hf ltac:(lia) Hb) as [t Ht].
  pose proof (as_answers _ _ _ _ Ht) as A. split.
  - exists t. split; [apply Ht|]. split; [intros u i; by apply same_answers_get|].
    split; [apply A|]. split; [by apply same_answers_users|].
    unfold d_file_size, d_total_count. by rewrite (sa_total _ _ A).
  - intros sh. destruct (close_as_session bsz h s t sh Ht ltac:(lia)) as (s' & t' & Hs' & Ht' & Hd & Hc).
    exists s'. split; [done|]. split; [done|]. intros f Hu Hfd.
    destruct (C22_close_and_reopen bsz h t (as_session_of _ _ _ _ Ht) Hl sh) as (t2 & Ht2 & _ & Hop).
    rewrite Ht' in Ht2. injection Ht2 as <-. apply Hop; [done|]. by rewrite Hfd.
Qed.
Print Assumptions C127_repeated_close_partial.

(** Once the file is closed everything is saved, also when that Close reported an error
    (the operating system's close failed).  Repeating Close is then reported as an error
    every time and changes nothing, so the caller cannot learn that all is well. *)
Theorem C127_once_closed :
  forall bsz h s env sh s' o, retried bsz h s -> Z.of_nat (length h) + 1 < 2 ^ 32 -> (6 <= bsz)%nat ->
  d_close bsz sh (failing env s) = (s', o) -> f_closed (ds_file s') = true ->
  (o = Ret tt \/ exists e, o = Err e) /\
  (forall f, usable f -> f_data f = f_data (ds_file s') ->
     exists f' t, d_open f = (f', Ret t) /\ session bsz (h ++ [EvFlush]) t /\
       forall user item, d_get t user item = last_add h user item) /\
  (forall env' sh', exists e, d_close bsz sh' (failing env' s') = (failing env' s', Err e)).
Proof.
  intros bsz h s env sh s' o Hr Hl Hb H Hcl. destruct (retried_as_session bsz h s Hr ltac:(lia) Hb) as [t Ht].
  destruct (closed_saved bsz h s t env sh s' o Ht ltac:(lia) H Hcl) as (s0 & H0 & Hd & Ho).
  split; [done|]. split.
  - intros f Hu Hfd. destruct (C127_repeated_close_partial bsz h s Hr Hl Hb) as [_ Hp].
    destruct (Hp sh) as (s2 & Hs2 & _ & Hop). rewrite H0 in Hs2. injection Hs2 as <-. apply Hop; [done|]. by rewrite Hfd.
  - intros env' sh'. by apply d_close_refused.
Qed.
Print Assumptions C127_once_closed.

(** A Close that tears the header, one that cannot unlock the file, one where closing
    fails, with operations between them: all three are in the file. *)
Example C127_case :
  let sh := Shuffle _ (fun l : list (Z * list item_delta) => l) (fun l => reflexivity l) in
  exists s s' e, retried 64 [EvAdd 43 1 10; EvAdd 45 2 20; EvFlush; EvAdd 43 2 20] s /\
    f_data (ds_file s) = delta_image 1 [op_record 43 1 10; op_record 45 2 20] /\
    d_close 64 sh (failing [FOk; FOk; FOk; FErr 0] s) = (s', Err e) /\ f_closed (ds_file s') = true /\
    f_data (ds_file s') = delta_image 0 [op_record 43 1 10; op_record 45 2 20; op_record 43 2 20].
Proof.
  cbn zeta.
  edestruct (delta_sessions_exist 64 (open_file KOs []) [DAdd 43 1 10]) as (f' & s0 & s & Ho & Hc & Hs).
  - split; [done|]. split; [done|]. by left.
  - done.
  - by repeat (apply Forall_cons; split; [done|]).
  - cbn. lia.
  - vm_compute in Ho; injection Ho as <- <-; vm_compute in Hc; injection Hc as <-.
    set (sh := Shuffle _ (fun l : list (Z * list item_delta) => l) (fun l => reflexivity l)).
    apply retried_session in Hs. cbn [map event_of] in Hs.
    eapply (retried_close_unflushed 64 _ _ [FErr 3] sh) in Hs; [|by left; exists 3%nat, []|by vm_compute|by vm_compute].
    eapply (retried_call 64 _ _ (DAdd 45 2 20)) in Hs; [|done|by vm_compute].
    eapply (retried_close 64 _ _ [FOk; FOk; FErr 0] sh) in Hs; [|by vm_compute|vm_compute; reflexivity|by vm_compute].
    eapply (retried_call 64 _ _ (DAdd 43 2 20)) in Hs; [|done|vm_compute; reflexivity].
    cbn [app] in Hs. eexists _, _, _. split; [exact Hs|]. split; [by vm_compute|].
    split; [vm_compute; reflexivity|]. split; by vm_compute.
Qed.
