(** Property C120: what Flush and Close of the delta storage report when calls on the file
    fail (internal/infra/delta/storage.go). *)
From Verif Require Import Base GoIO Lock Delta SpecFile SpecLock SpecCrash SpecDelta DeltaSession GoIOFacts
  CodecFacts LockFacts DeltaFacts DeltaRecoverFacts DeltaStoreFacts DeltaHistFacts DeltaCrashFacts
  PropDeltaStore PropDeltaFault PropDeltaCrash FaultyFacts IndexFaultFacts DeltaHonestFacts.

(** * C120

    [failing env s]: the storage [s] on a file of which [env] says which writes and closes
    fail, and after how many bytes. *)

Lemma failing_quiet bsz h s env : session bsz h s -> Z.of_nat (length h) < 2 ^ 32 ->
  exists E, dinv h E s /\ s = quiet_store (failing env s).
Proof.
  intros Hs Hl. destruct (session_inv bsz h s Hs Hl) as [E I]. exists E. split; [done|].
  pose proof (di_ok _ _ _ I) as [_ He]. destruct s as [c n t u [k d p cl e l]]. cbn in *. by rewrite He.
Qed.

(** A Flush that reports success has done what it does when nothing fails. *)
Theorem C120_flush_success :
  forall bsz h s env sh s', session bsz h s -> Z.of_nat (length h) < 2 ^ 32 ->
  d_flush bsz sh (failing env s) = (s', Ret tt) ->
  d_flush bsz sh s = (failing [] s', Ret tt) /\ session bsz (h ++ [EvFlush]) (failing [] s').
Proof.
  intros bsz h s env sh s' Hs Hl H. destruct (failing_quiet bsz h s env Hs Hl) as (E & I & Eq).
  destruct (d_flush_faulty bsz sh h E s (failing env s) I Hl Eq) as (s1 & _ & [(E1 & E0 & _) | (e & j & E1 & _)]).
  - rewrite E1 in H. inversion H; subst s1. assert (E2 : d_flush bsz sh s = (failing [] s', Ret tt)) by exact E0.
    split; [done|]. by apply (session_call bsz h s (DFlush sh)).
  - rewrite E1 in H. discriminate H.
Qed.
Print Assumptions C120_flush_success.

(** A Close that reports success has closed the file, and opening it gives every answer
    the storage gave. *)
Theorem C120_close_success :
  forall bsz h s env sh s' f, session bsz h s -> Z.of_nat (length h) + 1 < 2 ^ 32 ->
  d_close bsz sh (failing env s) = (s', Ret tt) ->
  usable f -> f_data f = f_data (ds_file s') ->
  f_closed (ds_file s') = true /\
  exists f' t, d_open f = (f', Ret t) /\ session bsz (h ++ [EvFlush]) t /\
    forall user item, d_get t user item = last_add h user item.
Proof.
  intros bsz h s env sh s' f Hs Hl H Hu Hd. destruct (failing_quiet bsz h s env Hs ltac:(lia)) as (E & I & Eq).
  destruct (d_close_faulty bsz sh h E s (failing env s) I ltac:(lia) Eq) as (s1 & [(E1 & Hc & Hd1) | (e & E1 & _)]);
    rewrite E1 in H; [|discriminate H]. inversion H; subst s1. split; [done|].
  destruct (C22_close_and_reopen bsz h s Hs Hl sh) as (s2 & Hc2 & _ & Hop).
  destruct (close_inv bsz sh h E s I ltac:(lia)) as (s3 & Hc3 & Hd3 & _). rewrite Hc2 in Hc3. injection Hc3 as <-.
  apply Hop; [done|]. congruence.
Qed.
Print Assumptions C120_close_success.

(** Both end. *)
Theorem C120_calls_end :
  forall bsz h s env sh, session bsz h s -> Z.of_nat (length h) < 2 ^ 32 ->
  (exists s', d_flush bsz sh (failing env s) = (s', Ret tt) \/ exists e, d_flush bsz sh (failing env s) = (s', Err e)) /\
  (exists s', d_close bsz sh (failing env s) = (s', Ret tt) \/ exists e, d_close bsz sh (failing env s) = (s', Err e)).
Proof.
  intros bsz h s env sh Hs Hl. destruct (failing_quiet bsz h s env Hs Hl) as (E & I & Eq). split.
  - destruct (d_flush_faulty bsz sh h E s (failing env s) I Hl Eq) as (s1 & _ & [(E1 & _) | (e & j & E1 & _)]); eauto.
  - destruct (d_close_faulty bsz sh h E s (failing env s) I Hl Eq) as (s1 & [(E1 & _) | (e & E1 & _)]); eauto.
Qed.
Print Assumptions C120_calls_end.

(** A Flush or a Close that fails loses nothing that an earlier Flush had saved, and adds
    nothing that was not asked for: when the storage is abandoned and its file opened
    again, every pair has the answer it had at the last successful Flush or the one it had
    when the failing call was made. *)
Theorem C120_failure_keeps_flushed :
  forall bsz csz h s env sh s' e f, session bsz h s -> Z.of_nat (length h) + 1 < 2 ^ 32 -> (0 < csz)%nat ->
  d_flush bsz sh (failing env s) = (s', Err e) \/ d_close bsz sh (failing env s) = (s', Err e) ->
  usable f -> f_pos f = 0%nat -> f_data f = f_data (ds_file s') ->
  exists f' t h', d_open_maybe_recover csz f = (f', Ret t) /\ session bsz h' t /\
    forall user item,
      d_get t user item = last_add (durable h) user item \/ d_get t user item = last_add h user item.
Proof.
  intros bsz csz h s env sh s' e f Hs Hl Hcsz H Hu Hp Hd. destruct (failing_quiet bsz h s env Hs ltac:(lia)) as (E & I & Eq).
  assert (Hcr : forall j, f_data f = crash_image (ds_file s) (flushed_file (ds_total s) (visit sh (ds_new s)) (ds_file s)) j ->
    exists f' t h', d_open_maybe_recover csz f = (f', Ret t) /\ session bsz h' t /\
      forall user item, d_get t user item = last_add (durable h) user item \/ d_get t user item = last_add h user item).
  { intros j Hj. destruct (crash_flush bsz csz h E s sh j f I ltac:(lia) Hcsz Hu Hp Hj) as (f' & t & Ho & ops & Hst & _ & _ & _ & Hg & _).
    exists f', t, (map op_event ops ++ [EvFlush]). done. }
  destruct H as [H | H].
  - destruct (d_flush_faulty bsz sh h E s (failing env s) I ltac:(lia) Eq) as (s1 & _ & [(E1 & _) | (e1 & j & E1 & Hj)]);
      rewrite E1 in H; [discriminate H|]. inversion H; subst s1. rewrite Hj in Hd.
    assert (Hf : quiet (ds_file (failing env s)) = ds_file s) by (by rewrite Eq at 2). rewrite Hf in Hd. by apply (Hcr j).
  - destruct (d_close_faulty bsz sh h E s (failing env s) I ltac:(lia) Eq) as (s1 & [(E1 & _) | (e1 & E1 & [Hj | [j Hj]])]);
      rewrite E1 in H; [discriminate H|inversion H; subst s1; rewrite Hj in Hd..].
    + destruct (C22_close_and_reopen bsz h s Hs Hl sh) as (s2 & Hc2 & _ & Hop).
      destruct (close_inv bsz sh h E s I ltac:(lia)) as (s3 & Hc3 & Hd3 & _). rewrite Hc2 in Hc3. injection Hc3 as <-.
      destruct (Hop f Hu) as (f' & t & Ho & Hst & Hg); [congruence|].
      exists f', t, (h ++ [EvFlush]). split; [by eapply open_unlocked_maybe|]. split; [done|]. intros u i. right. apply Hg.
    + by apply (Hcr j).
Qed.
Print Assumptions C120_failure_keeps_flushed.

(** One operation is flushed; a second is added; then Close is called: nothing fails; the
    header fails; the record fails after 7 bytes; the lock byte fails; the close fails. *)
Definition case_order : new_order := Shuffle _ (fun l : list (Z * list item_delta) => l) (fun l => reflexivity l).
Definition case_store : dstore :=
  match d_open (open_file KOs []) with
  | (_, Ret s) => d_add 45 2 20 (fst (d_flush 64 case_order (d_add 43 1 10 s)))
  | (f, _) => DStore ∅ ∅ 0 0 f
  end.
Definition case_close (env : list fault) : bool * option (option Z * option Z) :=
  let '(s, o) := d_close 64 case_order (failing env case_store) in
  (match o with Ret _ => true | _ => false end,
   match d_open_maybe_recover 8 (open_file KOs (f_data (ds_file s))) with
   | (_, Ret t) => Some (d_get t 1 10, d_get t 2 20)
   | _ => None
   end).

Example C120_case :
  session 64 [EvAdd 43 1 10; EvFlush; EvAdd 45 2 20] case_store /\
  case_close [FOk; FOk; FOk; FOk] = (true, Some (Some 43, Some 45)) /\
  case_close [FErr 3] = (false, Some (Some 43, None)) /\
  case_close [FOk; FErr 7] = (false, Some (Some 43, None)) /\
  case_close [FOk; FOk; FErr 0] = (false, Some (Some 43, Some 45)) /\
  case_close [FOk; FOk; FErr 1] = (false, Some (Some 43, Some 45)) /\
  case_close [FOk; FOk; FOk; FErr 0] = (false, Some (Some 43, Some 45)).
Proof.
  split; [|vm_compute; done].
  edestruct (delta_sessions_exist 64 (open_file KOs []) [DAdd 43 1 10; DFlush case_order; DAdd 45 2 20]) as (f' & s0 & s & Ho & Hc & Hs).
  - split; [done|]. split; [done|]. by left.
  - done.
  - by repeat (apply Forall_cons; split; [done|]).
  - cbn. lia.
  - vm_compute in Ho. injection Ho as <- <-. vm_compute in Hc. injection Hc as <-. exact Hs.
Qed.
