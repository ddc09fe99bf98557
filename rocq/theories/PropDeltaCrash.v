(** Properties C25-C30: the delta file across crashes
    (internal/infra/delta/storage.go, storagefactory.go, protocol.go).

    [crash_image f f' j] (SpecCrash.v) is what is on disk when the process dies after
    [j] byte writes of the operation that would have taken [f] to [f']. *)
From Verif Require Import Base GoIO Lock Delta SpecFile SpecLock SpecCrash SpecDelta DeltaSession GoIOFacts
  CodecFacts LockFacts DeltaFacts DeltaRecoverFacts DeltaStoreFacts DeltaHistFacts DeltaCrashFacts DeltaRecCrashFacts
  DeltaWideFacts PropDeltaStore.

(** * C25 *)

(** The process dies in Add or Flush.  [durable (h ++ [event_of c])]: as of the
    interrupted call if it is a Flush, as of the last completed one if it is not. *)
Theorem C25_crash_in_call :
  forall bsz csz h s, session bsz h s -> Z.of_nat (length h) < 2 ^ 32 -> (0 < csz)%nat ->
  forall c s' j f, d_call bsz c s = (s', Ret tt) ->
  usable f -> f_pos f = 0%nat -> f_data f = crash_image (ds_file s) (ds_file s') j ->
  exists f' t h', d_open_maybe_recover csz f = (f', Ret t) /\ session bsz h' t /\
    (forall user item,
      d_get t user item = last_add (durable h) user item \/
      d_get t user item = last_add (durable (h ++ [event_of c])) user item) /\
    ((length (written_by (ds_file s) (ds_file s')) <= j)%nat ->
     forall user item, d_get t user item = last_add (durable (h ++ [event_of c])) user item).
Proof.
  intros bsz csz h s Hs Hl Hcsz c s' j f Hc Hu Hp Hd.
  destruct (session_inv bsz h s Hs Hl) as [E I].
  destruct (call_image bsz h E s c s' I Hl Hc) as (sh & F & HF & Himg).
  destruct c as [op u i|sh']; cbn [event_of].
  - rewrite (Himg j) in Hd.
    destruct (crash_nothing bsz csz h E s f I Hl Hcsz Hu Hp Hd) as (f' & t & ops & Ho & Hst & _ & _ & _ & Hg).
    exists f', t, (map op_event ops ++ [EvFlush]). split; [done|]. split; [done|].
    split; [intros; left; apply Hg|]. intros _ u' i'. rewrite durable_add. apply Hg.
  - destruct HF as [<- ->]. pose proof (Himg 0%nat) as Hf. rewrite Hf in Hd.
    destruct (crash_flush bsz csz h E s sh j f I Hl Hcsz Hu Hp Hd) as (f' & t & Ho & ops & Hst & _ & _ & _ & Hg & Hall).
    exists f', t, (map op_event ops ++ [EvFlush]). split; [done|]. split; [done|]. rewrite durable_flush.
    assert (Hq : forall u' i', last_add (h ++ [EvFlush]) u' i' = last_add h u' i') by (intros; by rewrite last_add_app).
    split; [intros u' i'; rewrite Hq; apply Hg|].
    intros Hj u' i'. rewrite Hq. apply Hall. revert Hj. rewrite Hf, (written_flush h E) by done.
    rewrite app_length, !wsets_length, recs_length. rewrite app_length, be_enc_length. cbn [length]. lia.
Qed.
Print Assumptions C25_crash_in_call.

(** The process dies in Close, before its last write. *)
Theorem C25_crash_in_close :
  forall bsz csz h s, session bsz h s -> Z.of_nat (length h) < 2 ^ 32 -> (0 < csz)%nat ->
  forall sh s' j f, d_close bsz sh s = (s', Ret tt) ->
  (j < length (written_by (ds_file s) (ds_file s')))%nat ->
  usable f -> f_pos f = 0%nat -> f_data f = crash_image (ds_file s) (ds_file s') j ->
  exists f' t h', d_open_maybe_recover csz f = (f', Ret t) /\ session bsz h' t /\
    forall user item,
      d_get t user item = last_add (durable h) user item \/ d_get t user item = last_add h user item.
Proof.
  intros bsz csz h s Hs Hl Hcsz sh s' j f Hc Hj Hu Hp Hd.
  destruct (session_inv bsz h s Hs Hl) as [E I].
  destruct (close_inv bsz sh h E s I Hl) as (s1 & Hc1 & _ & _ & Hlog). rewrite Hc in Hc1. injection Hc1 as <-.
  set (g := flushed_file (ds_total s) (visit sh (ds_new s)) (ds_file s)) in *.
  assert (Hg : exists l, f_log g = f_log (ds_file s) ++ l).
  { exists (written_by (ds_file s) g). unfold g. rewrite (written_flush h E) by done. apply flushed_log, I. }
  assert (Hw : written_by (ds_file s) (ds_file s') = written_by (ds_file s) g ++ [WSet 9 0]).
  { destruct Hg as [l Hg]. unfold written_by. rewrite Hlog, Hg, <- app_assoc. by rewrite !drop_app_alt. }
  rewrite Hw, app_length in Hj. cbn [length] in Hj.
  assert (Hd' : f_data f = crash_image (ds_file s) g j).
  { rewrite Hd. unfold crash_image. rewrite Hw, take_app_le by lia. done. }
  destruct (crash_flush bsz csz h E s sh j f I Hl Hcsz Hu Hp Hd') as (f' & t & Ho & ops & Hst & _ & _ & _ & Hget & _).
  exists f', t, (map op_event ops ++ [EvFlush]). done.
Qed.
Print Assumptions C25_crash_in_close.

(** Dying in the middle of the flush of two entries, after the first of them. *)
Example C25_case :
  let sh := Shuffle _ (fun l => l) (fun l => reflexivity l) in
  exists s s', session 16 [EvAdd 43 1 10; EvFlush; EvAdd 45 1 10; EvAdd 43 2 20] s /\
    d_flush 16 sh s = (s', Ret tt) /\ length (written_by (ds_file s) (ds_file s')) = 42%nat /\
    exists f' t, d_open_maybe_recover 8 (open_file KOs (crash_image (ds_file s) (ds_file s') 30)) = (f', Ret t) /\
      d_get t 1 10 = Some 45 /\ d_get t 2 20 = None.
Proof.
  cbn zeta.
  edestruct (delta_sessions_exist 16 (open_file KOs [])
    [DAdd 43 1 10; DFlush (Shuffle _ (fun l => l) (fun l => reflexivity l)); DAdd 45 1 10; DAdd 43 2 20])
    as (f' & s0 & s & Ho & Hc & Hs).
  - split; [done|]. split; [done|]. by left.
  - done.
  - by repeat (apply Forall_cons; split; [done|]).
  - cbn. lia.
  - exists s. vm_compute in Ho. injection Ho as <- <-. vm_compute in Hc. injection Hc as <-.
    eexists. split; [exact Hs|]. split; [by vm_compute|]. split; [by vm_compute|].
    eexists _, _. split; [by vm_compute|]. by vm_compute.
Qed.

(** * C26 *)

(** Writes that leave byte 9 as it is. *)
Definition keeps_lock (w : wop) : Prop := match w with WSet p b => p = 9%nat -> b = 1 | WTrunc _ => False end.

Lemma replay_keeps_lock l : Forall keeps_lock l -> forall d, (14 <= length d)%nat -> d !! 9%nat = Some 1 ->
  replay l d !! 9%nat = Some 1.
Proof.
  induction 1 as [|[p b|n] l Hw _ IH]; intros d Hl Hd; [done| |done].
  change (replay (WSet p b :: l) d) with (replay l (splice p [b] d)). apply IH.
  - rewrite splice_length. lia.
  - rewrite splice_lookup. destruct (decide (9 < p)%nat).
    + by rewrite lookup_app_l by lia.
    + cbn [length]. destruct (decide (9 < p + 1)%nat); [|done].
      assert (p = 9)%nat as -> by lia. rewrite Nat.sub_diag. cbn. by rewrite Hw.
Qed.

Lemma wsets_keep_lock off bs : (9 < off)%nat -> Forall keeps_lock (wsets off bs).
Proof.
  revert off. induction bs as [|b bs IH]; intros off Ho; cbn [wsets]; constructor; [cbn; lia|]. apply IH. lia.
Qed.

Lemma flush_keeps_lock total F f : (14 <= length (f_data f))%nat ->
  Forall keeps_lock (written_by f (flushed_file total F f)).
Proof.
  intros Hl. unfold written_by, flushed_file. rewrite fput_log. cbn [fset_pos f_log f_pos]. unfold hdr_file at 1.
  rewrite fput_log. cbn [fset_pos f_log f_pos]. rewrite <- app_assoc, drop_app_alt by done.
  apply Forall_app. split.
  - cbn [app wsets]. do 2 (constructor; [cbn; lia|]). apply wsets_keep_lock. lia.
  - apply wsets_keep_lock. unfold hdr_file. rewrite fput_data, splice_length by (cbn; lia). cbn [fset_pos f_pos f_data]. lia.
Qed.

Theorem C26_locked_while_open :
  forall bsz h s, session bsz h s ->
  f_data (ds_file s) !! 9%nat = Some 1 /\
  (forall c s' j, d_call bsz c s = (s', Ret tt) ->
   crash_image (ds_file s) (ds_file s') j !! 9%nat = Some 1) /\
  (forall sh s', d_close bsz sh s = (s', Ret tt) ->
   f_data (ds_file s') !! 9%nat = Some 0 /\
   forall j, (j < length (written_by (ds_file s) (ds_file s')))%nat ->
   crash_image (ds_file s) (ds_file s') j !! 9%nat = Some 1).
Proof.
  intros bsz h s Hs. destruct (session_wide bsz h s Hs) as (E & V & W).
  assert (Hlen : (14 <= length (f_data (ds_file s)))%nat) by (rewrite (wi_data _ _ _ W), himg_length; lia).
  assert (Hd : f_data (ds_file s) !! 9%nat = Some 1) by (by rewrite (wi_data _ _ _ W)).
  destruct (wi_mem _ _ _ W) as (h0 & f0 & I).
  assert (Hfl : forall sh, d_flush bsz sh s =
    (DStore (addto (ds_cache s) (visit sh (ds_new s))) ∅ (ds_total s) 0
       (flushed_file (ds_total s) (visit sh (ds_new s)) (ds_file s)), Ret tt)).
  { intros sh. apply d_flush_ok; [apply W|right; lia|]. exact (visit_typed _ _ _ sh I). }
  split; [done|]. split.
  - intros c s' j Hc. unfold crash_image. apply replay_keeps_lock; [|done|done]. apply Forall_take.
    destruct c as [op u i|sh]; cbn [d_call] in Hc.
    + injection Hc as <-. assert (ds_file (d_add op u i s) = ds_file s) as ->.
      { unfold d_add. by destruct (replace_delta i op _). }
      unfold written_by. by rewrite drop_all.
    + rewrite Hfl in Hc. injection Hc as <-. by apply flush_keeps_lock.
  - intros sh s' Hc. destruct (winv_close bsz sh E V s W) as (s1 & Hc1 & Hd1 & _). rewrite Hc in Hc1. injection Hc1 as <-.
    split; [by rewrite Hd1|]. intros j Hj.
    set (g := flushed_file (ds_total s) (visit sh (ds_new s)) (ds_file s)) in *.
    assert (Hlog : f_log (ds_file s') = f_log g ++ [WSet 9 0]).
    { destruct (winv_flush bsz sh E V s W) as (s2 & H2 & W2 & _). rewrite Hfl in H2. injection H2 as H2.
      pose proof (f_equal ds_file H2) as Hg. cbn [ds_file] in Hg. fold g in Hg.
      unfold d_close, iobind, iomaperr in Hc. rewrite Hfl in Hc. unfold on_dfile at 1 in Hc. cbn [ds_file] in Hc. fold g in Hc.
      unfold d_write_locked in Hc. change delta_locked_offset with (Z.of_nat 9) in Hc.
      rewrite Hg in Hc.
      rewrite write_locked_ok in Hc; [|apply W2|apply W2|right; rewrite (wi_data _ _ _ W2), himg_length; lia].
      unfold on_dfile in Hc. cbn [ds_file] in Hc. rewrite <- Hg in Hc.
      unfold fclose in Hc. cbn [f_kind f_closed f_data f_pos f_env f_log] in Hc.
      destruct (f_kind g); injection Hc as <-; done. }
    assert (Hg : exists l, f_log g = f_log (ds_file s) ++ l).
    { unfold g, flushed_file, hdr_file. rewrite !fput_log. cbn [fset_pos f_log f_pos]. rewrite !fput_log. cbn [fset_pos f_log f_pos].
      rewrite <- app_assoc. eauto. }
    assert (Hw : written_by (ds_file s) (ds_file s') = written_by (ds_file s) g ++ [WSet 9 0]).
    { destruct Hg as [l Hg]. unfold written_by. rewrite Hlog, Hg, <- app_assoc. by rewrite !drop_app_alt. }
    rewrite Hw, app_length in Hj. cbn [length] in Hj. unfold crash_image.
    rewrite Hw, take_app_le by lia. apply replay_keeps_lock; [|done|done]. apply Forall_take. by apply flush_keeps_lock.
Qed.
Print Assumptions C26_locked_while_open.

(** A flush does write the lock byte. *)
Example C26_case :
  let sh := Shuffle _ (fun l => l) (fun l => reflexivity l) in
  exists s s', session 16 [EvAdd 43 1 10] s /\ d_close 16 sh s = (s', Ret tt) /\
    written_by (ds_file s) (ds_file s') !! 1%nat = Some (WSet 9 1) /\
    written_by (ds_file s) (ds_file s') !! 24%nat = Some (WSet 9 0).
Proof.
  cbn zeta.
  edestruct (delta_sessions_exist 16 (open_file KOs []) [DAdd 43 1 10]) as (f' & s0 & s & Ho & Hc & Hs).
  - split; [done|]. split; [done|]. by left.
  - done.
  - by repeat (apply Forall_cons; split; [done|]).
  - cbn. lia.
  - exists s. vm_compute in Ho. injection Ho as <- <-. vm_compute in Hc. injection Hc as <-.
    eexists. split; [exact Hs|]. split; [by vm_compute|]. by vm_compute.
Qed.

(** * C27 *)
Theorem C27_open_rejects_bad_files :
  forall f, usable f -> f_data f <> [] ->
  (take 8 (f_data f) <> delta_magic \/ (length (f_data f) < 14)%nat \/
   (exists x, f_data f !! 9%nat = Some x /\ x <> 0) \/
   (exists n, is_u32 n /\ take 4 (drop 10 (f_data f)) = be32 n /\
      Z.of_nat (length (f_data f)) < 14 + 18 * n)) ->
  exists f' e, d_open f = (f', Err e) /\ f_data f' = f_data f.
Proof.
  intros f (Hc & He & Hp) Hne Hbad.
  destruct (d_open_nonempty f (conj Hc He) Hne) as (p & _ & Ho).
  destruct (d_load_bad (f_data f)) as (l' & e & Hload).
  { destruct Hbad as [H | [H | [H | (n & Hn & Hd & Hlt)]]]; [by left|by right; left|by right; right; left|].
    right. right. right. rewrite Hd. change (be32 n) with (be_enc 4 n). rewrite be_dec_enc by (rewrite pow256_4; apply Hn).
    destruct Hn. lia. }
  rewrite Hload in Ho. cbn [snd] in Ho. eexists _, e. split; [exact Ho|]. done.
Qed.
Print Assumptions C27_open_rejects_bad_files.

Example C27_case :
  let short := delta_magic ++ [1; 0] ++ be32 2 ++ op_record 43 1 2 in
  take 4 (drop 10 short) = be32 2 /\ length short = 32%nat /\
  (exists e, snd (d_open (open_file KOs short)) = Err e) /\
  (exists e, snd (d_open (open_file KOs (delta_image 1 []))) = Err e) /\
  (exists s, snd (d_open (open_file KOs (delta_image 0 [op_record 43 1 2]))) = Ret s).
Proof.
  cbn zeta. split; [done|]. split; [done|]. split; [|split]; eexists; by vm_compute.
Qed.

(** * C28 *)

(** False, for every kind of file and every pointer: IsLocked has nothing to read. *)
Theorem C28_open_maybe_recover_empty_refuted :
  forall csz f, usable f -> f_data f = [] ->
  exists f' e, d_open_maybe_recover csz f = (f', Err e) /\ f_data f' = [].
Proof.
  intros csz f (Hc & He & Hp) Hd.
  unfold d_open_maybe_recover, iobind at 1, iomaperr at 1.
  change d_is_locked with (is_locked_at (Z.of_nat 9)).
  destruct (is_locked_short 9 f) as (f' & e & H & Hd' & _); [done|done|rewrite Hd; cbn; lia|].
  rewrite H. eexists _, _. split; [done|]. by rewrite Hd'.
Qed.
Print Assumptions C28_open_maybe_recover_empty_refuted.

(** Open does create the storage. *)
Theorem C28_open_empty_partial :
  forall f, usable f -> f_data f = [] ->
  exists f' s, d_open f = (f', Ret s) /\ ds_file s = f' /\ f_data f' = delta_image 1 [] /\
    d_total_count s = 0 /\ d_user_count s = 0 /\ forall user item, d_get s user item = None.
Proof.
  intros f (Hc & He & Hp) Hd. destruct (d_open_empty f) as (log & Ho); [done|done|]. cbn zeta in Ho.
  eexists _, _. split; [exact Ho|]. done.
Qed.
Print Assumptions C28_open_empty_partial.

Example C28_case : usable (open_file KOs []) /\ usable (File KOs [] 5 false [] []).
Proof. split; (split; [done|]; split; [done|]; by left). Qed.

(** * C29 *)

(** False in three ways.  The copy over the original file clears the lock byte (byte 9)
    with its first bytes, before it has replaced the entries. *)

(** (1) A crash right after that leaves an unlocked file in which an invalid entry is
    loaded as if it were good. *)
Theorem C29_invalid_entry_loaded_refuted :
  exists (csz : nat) (bad good d : list byte) (j : nat) (f' f2 : file) (t : dstore),
    length bad = 18%nat /\ ~ valid_record bad /\
    d = delta_magic ++ [1; 1; 0; 0; 0; 2] ++ bad ++ good /\ recovers_to d (delta_image 0 [good]) /\
    d_recover csz (open_file KOs d) = (f', Ret tt) /\
    d_open_maybe_recover csz (open_file KOs (crash_image (open_file KOs d) f' j)) = (f2, Ret t) /\
    f_data f2 = delta_magic ++ [1; 1; 0; 0; 0; 2] ++ bad ++ good /\
    d_total_count t = 2 /\ d_get t 3 4 = Some 99.
Proof.
  exists 8%nat, (<[0%nat := 99]> (op_record 43 3 4)), (op_record 45 5 6).
  eexists _, 10%nat, _, _, _.
  split; [done|]. split; [by vm_compute|]. split; [done|].
  split.
  { left. exists [1; 1; 0; 0; 0; 2], [<[0%nat := 99]> (op_record 43 3 4); op_record 45 5 6], [].
    split; [done|]. split; [done|]. split; [by repeat (apply Forall_cons; split; [done|])|].
    split; [cbn; lia|]. by vm_compute. }
  split; [by vm_compute|]. split; [by vm_compute|]. split; [by vm_compute|]. by vm_compute.
Qed.
Print Assumptions C29_invalid_entry_loaded_refuted.

(** (2) After a torn Flush, it leaves an unlocked file announcing more entries than it
    has: no later OpenMaybeRecover opens it or changes it. *)
Theorem C29_unopenable_refuted :
  exists (bsz csz : nat) (h : list devent) (s s' : dstore) (sh : new_order) (j1 j2 : nat) (f' : file),
    session bsz h s /\ d_flush bsz sh s = (s', Ret tt) /\
    let torn := open_file KOs (crash_image (ds_file s) (ds_file s') j1) in
    d_recover csz torn = (f', Ret tt) /\ recovers_to (f_data torn) (delta_image 0 [op_record 43 1 10]) /\
    forall csz f, usable f -> f_data f = crash_image torn f' j2 ->
    exists f'' e, d_open_maybe_recover csz f = (f'', Err e) /\ f_data f'' = f_data f.
Proof.
  edestruct (delta_sessions_exist 16 (open_file KOs [])
    [DAdd 43 1 10; DFlush (Shuffle _ (fun l => l) (fun l => reflexivity l)); DAdd 45 2 20])
    as (f' & s0 & s & Ho & Hc & Hs).
  - split; [done|]. split; [done|]. by left.
  - done.
  - by repeat (apply Forall_cons; split; [done|]).
  - cbn. lia.
  - vm_compute in Ho. injection Ho as <- <-. vm_compute in Hc. injection Hc as <-.
    eexists 16%nat, 8%nat, _, _, _, (Shuffle _ (fun l => l) (fun l => reflexivity l)), 11%nat, 10%nat, _.
    split; [exact Hs|]. split; [by vm_compute|]. cbn zeta. split; [by vm_compute|].
    split.
    { vm_compute f_data. left. exists [1; 1; 0; 0; 0; 2], [op_record 43 1 10], (take 5 (op_record 45 2 20)).
      split; [by vm_compute|]. split; [done|]. split; [by repeat (apply Forall_cons; split; [done|])|].
      split; [vm_compute; lia|]. by vm_compute. }
    intros csz f Hu Hd.
    match type of Hd with _ = ?r => let v := eval vm_compute in r in
      assert (Hv : r = v) by (by vm_compute); rewrite Hv in Hd; clear Hv end.
    unfold d_open_maybe_recover, iobind at 1, iomaperr at 1.
    change d_is_locked with (is_locked_at (Z.of_nat 9)).
    assert (Hx : f_data f !! 9%nat = Some 0) by (by rewrite Hd).
    destruct Hu as (? & ? & ?). rewrite (is_locked_ok 9 0) by done. cbn [negb Z.eqb]. unfold iobind, ioret.
    destruct (C27_open_rejects_bad_files f) as (f1 & e & Ho & Hd1); [done|by rewrite Hd| |].
    { right. right. right. exists 2. split; [done|]. rewrite Hd. split; [done|]. vm_compute. done. }
    rewrite Ho. eexists _, e. split; [done|]. rewrite <- Hd1. apply fclose_data.
Qed.
Print Assumptions C29_unopenable_refuted.

(** (3) A crash just before the truncation leaves the torn rest in the unlocked file;
    the next Flush appends after it and the pair added is lost. *)
Theorem C29_torn_rest_stays_refuted :
  exists (bsz csz : nat) (d : list byte) (j : nat) (f' f2 f3 : file) (t t' t3 : dstore) (sh : new_order),
    recovers_to d (delta_image 0 [op_record 43 1 10]) /\
    d_recover csz (open_file KOs d) = (f', Ret tt) /\
    d_open_maybe_recover csz (open_file KOs (crash_image (open_file KOs d) f' j)) = (f2, Ret t) /\
    d_close bsz sh (d_add 43 7 70 t) = (t', Ret tt) /\
    d_open_maybe_recover csz (open_file KOs (f_data (ds_file t'))) = (f3, Ret t3) /\
    d_get t3 7 70 = None.
Proof.
  exists 16%nat, 8%nat, (delta_magic ++ [1; 1; 0; 0; 0; 2] ++ op_record 43 1 10 ++ take 5 (op_record 45 2 20)), 32%nat.
  eexists _, _, _, _, _, _, (Shuffle _ (fun l => l) (fun l => reflexivity l)).
  split.
  { left. exists [1; 1; 0; 0; 0; 2], [op_record 43 1 10], (take 5 (op_record 45 2 20)).
    split; [by vm_compute|]. split; [done|]. split; [by repeat (apply Forall_cons; split; [done|])|].
    split; [vm_compute; lia|]. by vm_compute. }
  split; [by vm_compute|]. split; [by vm_compute|]. split; [by vm_compute|]. split; [by vm_compute|]. by vm_compute.
Qed.
Print Assumptions C29_torn_rest_stays_refuted.

(** True of a crash before the lock byte is rewritten and of one after the truncation,
    if the file has the magic bytes: opening yields what the uninterrupted recovery
    yields, which is the valid records. *)
Theorem C29_crash_in_recovery_partial :
  forall csz f out x f' j, usable f -> f_pos f = 0%nat -> (0 < csz)%nat ->
  take 8 (f_data f) = delta_magic -> f_data f !! 9%nat = Some x -> x <> 0 ->
  Forall is_byte (f_data f) -> Z.of_nat (length (f_data f)) < 2 ^ 32 * 18 ->
  recovers_to (f_data f) out ->
  d_recover csz f = (f', Ret tt) -> (j <= 9 \/ length (written_by f f') <= j)%nat ->
  forall g, usable g -> f_pos g = 0%nat -> f_data g = crash_image f f' j ->
  exists f1 t1 f2 t2,
    d_open_maybe_recover csz f = (f1, Ret t1) /\ d_open_maybe_recover csz g = (f2, Ret t2) /\
    f_data f1 = <[9%nat := 1]> out /\ f_data f2 = f_data f1 /\
    d_total_count t2 = d_total_count t1 /\
    forall user item, d_get t2 user item = d_get t1 user item.
Proof.
  intros csz f out x f' j Hu Hp Hcsz Hm Hx Hne Hb Hl Hout Hrec Hj g Hgu Hgp Hgd.
  destruct (recover_opens csz f out x) as (E & f0 & f1 & t1 & HE & HEl & Eout & Hu0 & Hd0 & Ho1 & Hr1); try done.
  destruct (opened_view f0 f1 t1 E) as (V1 & _ & V2 & V3); try done; [by rewrite Hd0|].
  assert (Hrem : frem f = f_data f) by (unfold frem; by rewrite Hp, drop_0).
  rewrite (d_recover_ok csz f out) in Hrec; rewrite ?Hrem; try done; [|by destruct Hu as (? & ? & _)].
  injection Hrec as <-.
  assert (Hw : written_by f (File (f_kind f) out 0 false [] (f_log f ++ wsets 0 out ++ [WTrunc (length out)])) =
    wsets 0 out ++ [WTrunc (length out)]) by (unfold written_by; cbn [f_log]; by rewrite drop_app_alt).
  unfold crash_image in Hgd. rewrite Hw in Hgd, Hj. rewrite app_length, wsets_length in Hj. cbn [length] in Hj.
  assert (Hlen : (10 <= length (f_data f))%nat) by (apply lookup_lt_Some in Hx; lia).
  assert (Hfin : exists f2 t2 g1, d_open_maybe_recover csz g = (f2, Ret t2) /\ usable g1 /\
    f_data g1 = out /\ d_open g1 = (f2, Ret t2)).
  { destruct Hj as [Hj | Hj].
    - destruct (recover_crash_early (f_data f) out j Hm Hlen Hout Hj) as (R1 & R2 & R3 & R4).
      rewrite <- Hgd in *.
      destruct (recover_opens csz g out x) as (E' & g0 & f2 & t2 & _ & _ & _ & Hg0 & Hgd0 & Hog & Hrg);
        try done; try (by rewrite R2); try (by rewrite R3); [by apply R4|].
      by exists f2, t2, g0.
    - rewrite recover_crash_late in Hgd by lia. rewrite Eout in Hgd.
      destruct (open_unlocked csz g E) as (f2 & t2 & Hog & Hrg); try done.
      exists f2, t2, g. by rewrite Eout. }
  destruct Hfin as (f2 & t2 & g1 & Hrg & Hug1 & Hdg1 & Hog).
  destruct (opened_view g1 f2 t2 E) as (W1 & _ & W2 & W3); try done; [by rewrite Hdg1|].
  exists f1, t1, f2, t2. split; [done|]. split; [done|].
  split; [by rewrite V1, Eout|]. split; [by rewrite V1|]. split; [unfold d_total_count; by rewrite V2|].
  intros u i. by rewrite V3, W3.
Qed.
Print Assumptions C29_crash_in_recovery_partial.

Example C29_case :
  let d := delta_magic ++ [7; 1; 0; 0; 0; 9] ++ op_record 43 1 2 ++ <[0%nat := 99]> (op_record 43 3 4) ++ [1; 2] in
  let f := open_file KOs d in
  usable f /\ take 8 d = delta_magic /\ recovers_to d (delta_image 0 [op_record 43 1 2]) /\
  exists f', d_recover 8 f = (f', Ret tt) /\ length (written_by f f') = 33%nat /\
    crash_image f f' 9 = <[8%nat := 1]> d.
Proof.
  cbn zeta. split; [by split; [done|split; [done|by left]]|]. split; [done|]. split.
  { left. exists [7; 1; 0; 0; 0; 9], [op_record 43 1 2; <[0%nat := 99]> (op_record 43 3 4)], [1; 2].
    split; [by vm_compute|]. split; [done|]. split; [by repeat (apply Forall_cons; split; [done|])|].
    split; [vm_compute; lia|]. by vm_compute. }
  eexists. split; [by vm_compute|]. by vm_compute.
Qed.

(** * C30 *)

(** False for zero-filled tails: 18 zero bytes are a valid record. *)
Theorem C30_zero_tail_refuted :
  exists bsz csz h s s' sh j f t, session bsz h s /\ d_flush bsz sh s = (s', Ret tt) /\
    d_open_maybe_recover csz
      (open_file KOs (crash_image (ds_file s) (ds_file s') j ++ replicate 18 0)) = (f, Ret t) /\
    d_get t 0 0 = Some 0 /\ EvAdd 0 0 0 ∉ h.
Proof.
  edestruct (delta_sessions_exist 16 (open_file KOs []) [DAdd 43 1 10]) as (f' & s0 & s & Ho & Hc & Hs).
  - split; [done|]. split; [done|]. by left.
  - done.
  - by repeat (apply Forall_cons; split; [done|]).
  - cbn. lia.
  - vm_compute in Ho. injection Ho as <- <-. vm_compute in Hc. injection Hc as <-.
    eexists 16%nat, 8%nat, _, _, _, (Shuffle _ (fun l => l) (fun l => reflexivity l)), 24%nat, _, _.
    split; [exact Hs|]. split; [by vm_compute|]. split; [by vm_compute|]. split; [by vm_compute|].
    cbn [map event_of]. rewrite elem_of_list_singleton. done.
Qed.
Print Assumptions C30_zero_tail_refuted.

(** True for torn writes: the recovered file holds records of Adds of the history only. *)
Theorem C30_torn_write_partial :
  forall bsz csz h s, session bsz h s -> Z.of_nat (length h) < 2 ^ 32 -> (0 < csz)%nat ->
  forall c s' j f, d_call bsz c s = (s', Ret tt) ->
  usable f -> f_pos f = 0%nat -> f_data f = crash_image (ds_file s) (ds_file s') j ->
  exists f' t ops, d_open_maybe_recover csz f = (f', Ret t) /\
    f_data (ds_file t) = delta_image 1 (map (fun '(op, user, item) => op_record op user item) ops) /\
    forall op user item, (op, user, item) ∈ ops -> EvAdd op user item ∈ h.
Proof.
  intros bsz csz h s Hs Hl Hcsz c s' j f Hc Hu Hp Hd.
  destruct (session_inv bsz h s Hs Hl) as [E I].
  destruct (call_image bsz h E s c s' I Hl Hc) as (sh & F & HF & Himg).
  destruct c as [op u i|sh'].
  - rewrite (Himg j) in Hd.
    destruct (crash_nothing bsz csz h E s f I Hl Hcsz Hu Hp Hd) as (f' & t & ops & Ho & _ & Hdt & Hsrc & _).
    exists f', t, ops. split; [done|]. split; [exact Hdt|]. intros. by apply (Hsrc (op0, user, item)).
  - destruct HF as [<- ->]. pose proof (Himg 0%nat) as Hf. rewrite Hf in Hd.
    destruct (crash_flush bsz csz h E s sh j f I Hl Hcsz Hu Hp Hd) as (f' & t & Ho & ops & _ & Hdt & Hsrc & _).
    exists f', t, ops. split; [done|]. split; [exact Hdt|]. intros op u i Hin. by apply (Hsrc (op, u, i)).
Qed.
Print Assumptions C30_torn_write_partial.

(** [C25_case] is an instance of its hypotheses. *)
Example C30_case : EvAdd 45 1 10 ∈ [EvAdd 43 1 10; EvFlush; EvAdd 45 1 10; EvAdd 43 2 20].
Proof. do 2 right. left. Qed.
