(** SetPrevious on a file whose writes fail: C138. *)
From Verif Require Import Base GoIO Lock Profile Recdb SpecFile SpecLock SpecRecdb RecdbSession
  GoIOFacts FaultyFacts CodecFacts LockFacts FileBufferFacts DeltaFacts RecdbFacts RecdbCrashFacts RecdbRetryFacts
  PropIO PropRecdb PropRecdbCrash.

(** * C138 *)

(** The iterator when the writes of its file are to succeed and fail as [env] says. *)
Definition scripted (env : list fault) (it : iter) : iter :=
  let f := it_file it in
  Iter (it_header it)
    (BReader (File (f_kind f) (f_data f) (f_pos f) (f_closed f) env (f_log f)) (br_buf (it_reader it)) (br_err (it_reader it)))
    (it_index it) (it_entry it).

Lemma scripted_file env it : quiet (it_file (scripted env it)) = quiet (it_file it) /\
  f_data (it_file (scripted env it)) = f_data (it_file it) /\
  f_pos (it_file (scripted env it)) = f_pos (it_file it) /\
  f_closed (it_file (scripted env it)) = f_closed (it_file it).
Proof. done. Qed.

Lemma quiet_fields f g : quiet f = g -> f_data f = f_data g /\ f_pos f = f_pos g.
Proof. by intros <-. Qed.

(** The bytes of a file that is torn after nothing and after everything. *)
Lemma torn_all l tail k s0 s j : l !! k = Some s0 -> length (stored_bytes s) = length (stored_bytes s0) ->
  (length (stored_bytes s) <= j)%nat -> torn_image l tail k s0 s j = recdb_image 0 (<[k := s]> l) ++ tail.
Proof.
  intros Hk Hl Hj. unfold torn_image, recdb_image. rewrite (take_ge (stored_bytes s)), (drop_ge (stored_bytes s0)), app_nil_r by lia.
  apply lookup_lt_Some in Hk. rewrite insert_length, insert_take_drop, map_app, concat_app by done. cbn [map concat].
  by rewrite <- !app_assoc.
Qed.

Lemma torn_none l tail k s0 s : l !! k = Some s0 -> torn_image l tail k s0 s 0 = recdb_image 0 l ++ tail.
Proof.
  intros Hk. unfold torn_image, recdb_image. rewrite take_0, drop_0. cbn [app]. rewrite <- app_assoc. f_equal.
  replace (concat (map stored_bytes l)) with (concat (map stored_bytes (take k l ++ s0 :: drop (S k) l)))
    by (by rewrite take_drop_middle).
  rewrite map_app, concat_app. cbn [map concat]. by rewrite <- !app_assoc.
Qed.

(** SetPrevious succeeds and has replaced the entry, or fails and has replaced its first [j]
    bytes; it then leaves the file positioned behind these. *)
Theorem C138_failed_partial :
  forall rsz f l tail k s0 s it1 env, ready rsz f l tail k s0 s it1 ->
  let begin := length (recdb_image 0 (take k l)) in
  exists it2, f_closed (it_file it2) = false /\ it_index it2 = it_index it1 /\
  (r_set_previous (entry_of s) (scripted env it1) = (it2, Ret tt) /\
     f_data (it_file it2) = recdb_image 0 (<[k := s]> l) ++ tail \/
   exists e j, r_set_previous (entry_of s) (scripted env it1) = (it2, Err e) /\ (j <= length (stored_bytes s))%nat /\
     f_data (it_file it2) = torn_image l tail k s0 s j /\ f_pos (it_file it2) = (begin + j)%nat).
Proof.
  intros rsz f l tail k s0 s it1 env Hrd. cbv zeta.
  destruct (ready_facts _ _ _ _ _ _ _ _ Hrd) as (Hfd & Hlens & Hpos & H1 & Hk1 & Hh & Hle & Hoff).
  destruct Hrd as (_ & _ & _ & _ & _ & _ & _ & Hk & Hts & Hfs & Hz & Hcap & _).
  set (front := recdb_header 1 like_type 0 (Z.of_nat (length l)) ++ images (take k l)) in *.
  assert (Hfront : length front = length (recdb_image 0 (take k l))).
  { unfold front, recdb_image. by rewrite !app_length. }
  destruct (ia_entry _ _ _ _ _ H1) as (s1 & Hs1 & Hre); [lia|]. rewrite Hk1 in Hs1. injection Hs1 as <-.
  assert (Hfr : (length front <= length (f_data (it_file it1)))%nat) by (rewrite Hfd, app_length; lia).
  destruct (set_previous_faulty s (scripted env it1)) as [[Hlt _]|[_ (it2 & Hc2 & Hi2 & He2 & H)]].
  - cbn [scripted it_index]. rewrite (ia_index _ _ _ _ _ H1). lia.
  - cbn [scripted it_entry]. congruence.
  - apply Hh.
  - apply Hts.
  - apply Hts.
  - change (f_pos (it_file it1) <= length (f_data (it_file it1)))%nat. rewrite Hpos, Hfd, !app_length. lia.
  - change (Z.of_nat (f_pos (it_file it1)) < st_cap s)%Z in Hlt. lia.
  - change (f_pos (it_file (scripted env it1))) with (f_pos (it_file it1)) in H.
    change (quiet (it_file (scripted env it1))) with (quiet (it_file it1)) in H.
    rewrite padded_zeros, Hoff in H by done.
    assert (Hput : forall bs, f_data (fput bs (fset_pos (length front) (quiet (it_file it1)))) =
      take (length front) (f_data (it_file it1)) ++ bs ++ drop (length front + length bs) (f_data (it_file it1))).
    { intros bs. rewrite fput_data by (cbn; done). cbn [fset_pos f_pos f_data quiet]. unfold splice.
      replace (length front - length (f_data (it_file it1)))%nat with 0%nat by lia. by rewrite app_nil_r. }
    assert (Hfull : forall j, f_data (fput (take j (stored_bytes s)) (fset_pos (length front) (quiet (it_file it1)))) =
      torn_image l tail k s0 s j).
    { intros j. rewrite Hput, Hfd, over_bytes by done. unfold torn_image.
      fold (images (take k l)). fold (images (drop (S k) l)). unfold front. by rewrite <- app_assoc. }
    exists it2. split; [done|]. split; [done|].
    destruct H as [[E Hq] | (e & j & _ & E & Hj & Hq)]; apply quiet_fields in Hq as [Hd Hp].
    + left. split; [done|]. rewrite Hd. rewrite <- (torn_all l tail k s0 s (length (stored_bytes s))), <- Hfull by done.
      by rewrite firstn_all.
    + right. exists e, j. split; [done|]. split; [done|]. split; [by rewrite Hd|].
      rewrite Hp, fput_pos. cbn [fset_pos f_pos]. rewrite take_length. lia.
Qed.
Print Assumptions C138_failed_partial.

(** The next process then reads the entries in front of [k] and, unless it fails there, some
    entry of the same capacity and all that follow. *)
Theorem C138_reopened_partial :
  forall rsz f l tail k s0 s it1 it2 env e rsz' f', ready rsz f l tail k s0 s it1 -> (0 < rsz')%nat ->
  r_set_previous (entry_of s) (scripted env it1) = (it2, Err e) ->
  usable f' -> f_data f' = f_data (it_file it2) ->
  exists it', r_new_iterator f' = (it_file it', Ret it') /\
  ((exists s', stored_typed s' /\ stored_fits s' /\ st_cap s' = st_cap s0 /\
      f_data f' = recdb_image 0 (<[k := s']> l) ++ tail /\
      forall ops, snd (r_ops rsz' ops it') = iterate (<[k := s']> l) 0 ops) \/
   snd (r_ops rsz' (repeat OpNext (S k)) it') = map entry_answer (take k l) ++ [AFail]).
Proof.
  intros rsz f l tail k s0 s it1 it2 env e rsz' f' Hrd Hr' E Hu' Hd'.
  destruct (C138_failed_partial _ _ _ _ _ _ _ _ env Hrd) as (it2' & _ & _ & [[E' _] | (e' & j & E' & _ & Hd & _)]);
    rewrite E in E'; injection E' as <-; [done|]. eapply torn_reopened; [done|done|done|]. by rewrite Hd', Hd.
Qed.
Print Assumptions C138_reopened_partial.

(** Repeating the call when the file works again.  It writes one capacity in front of the
    place where the first call stopped, not where the entry is; if there is no such place
    it fails. *)
Theorem C138_retry_where :
  forall rsz f l tail k s0 s it1 it2 env e, ready rsz f l tail k s0 s it1 ->
  r_set_previous (entry_of s) (scripted env it1) = (it2, Err e) ->
  let begin := length (recdb_image 0 (take k l)) in
  let size := length (stored_bytes s) in
  exists j, (j <= size)%nat /\ f_data (it_file it2) = torn_image l tail k s0 s j /\
  f_pos (it_file it2) = (begin + j)%nat /\
  let torn := torn_image l tail k s0 s j in
  exists it3,
  ((size <= begin + j)%nat /\ r_set_previous (entry_of s) (scripted [] it2) = (it3, Ret tt) /\
     f_data (it_file it3) = take (begin + j - size) torn ++ stored_bytes s ++ drop (begin + j) torn) \/
  ((begin + j < size)%nat /\ exists e', r_set_previous (entry_of s) (scripted [] it2) = (it3, Err e') /\
     f_data (it_file it3) = torn).
Proof.
  intros rsz f l tail k s0 s it1 it2 env e Hrd E. cbv zeta.
  destruct (ready_facts _ _ _ _ _ _ _ _ Hrd) as (Hfd & Hlens & Hpos & H1 & Hk1 & Hh & Hle & Hoff).
  destruct (C138_failed_partial _ _ _ _ _ _ _ _ env Hrd) as (it2' & Hc2 & Hi2 & [[E' _] | (e' & j & E' & Hj & Hd & Hp)]);
    rewrite E in E'; injection E' as <-; [done|]. subst e'. exists j. split; [done|]. split; [done|]. split; [done|].
  destruct Hrd as (_ & _ & _ & _ & _ & _ & _ & Hk & Hts & Hfs & Hz & Hcap & _).
  destruct (ia_entry _ _ _ _ _ H1) as (s1 & Hs1 & Hre); [lia|]. rewrite Hk1 in Hs1. injection Hs1 as <-.
  assert (He2 : it_entry it2 = it_entry it1).
  { revert E. unfold r_set_previous. destruct (_ =? _)%Z; [by intros [= <- _]|].
    destruct (negb _); [by intros [= <- _]|]. cbv zeta.
    match goal with |- context [match ?x with _ => _ end = _] => destruct x as [f2 [?|?| |]] end; by intros [= <- _]. }
  set (begin := length (recdb_image 0 (take k l))) in *.
  assert (Hlen : (begin + j <= length (f_data (it_file it2)))%nat).
  { rewrite Hd. unfold torn_image. fold (images (take k l)). rewrite !app_length, take_length, drop_length.
    unfold begin, recdb_image. fold (images (take k l)). rewrite app_length. change (length (recdb_header _ _ _ _)) with 19%nat.
    lia. }
  destruct (set_previous_faulty s (scripted [] it2)) as [[Hlt (it3 & e' & E3 & Hf3 & _)]|[Hge (it3 & Hc3 & Hi3 & He3 & H)]].
  - cbn [scripted it_index]. rewrite Hi2, (ia_index _ _ _ _ _ H1). lia.
  - cbn [scripted it_entry]. rewrite He2. congruence.
  - exact Hc2.
  - apply Hts.
  - apply Hts.
  - change (f_pos (it_file it2) <= length (f_data (it_file it2)))%nat. by rewrite Hp.
  - change (Z.of_nat (f_pos (it_file it2)) < st_cap s)%Z in Hlt. unfold stored_fits in Hfs.
    exists it3. right. split; [lia|]. exists e'. split; [done|]. rewrite Hf3. exact Hd.
  - change (st_cap s <= Z.of_nat (f_pos (it_file it2)))%Z in Hge.
    change (f_pos (it_file (scripted [] it2))) with (f_pos (it_file it2)) in H.
    change (quiet (it_file (scripted [] it2))) with (quiet (it_file it2)) in H.
    rewrite padded_zeros, Hp in H by done. unfold stored_fits in Hfs.
    replace (begin + j - Z.to_nat (st_cap s))%nat with (begin + j - length (stored_bytes s))%nat in H by lia.
    exists it3. left. split; [lia|].
    destruct H as [[E3 Hq] | (? & ? & Hne & _)]; [|done]. split; [done|].
    apply quiet_fields in Hq as [Hq _]. rewrite Hq, fput_data by (cbn [fset_pos f_pos f_data quiet]; lia).
    cbn [fset_pos f_pos f_data quiet]. unfold splice.
    replace (begin + j - length (stored_bytes s) - length (f_data (it_file it2)))%nat with 0%nat by lia.
    rewrite app_nil_r, Hd. do 3 f_equal. lia.
Qed.
Print Assumptions C138_retry_where.

(** So, when the failed call has written nothing and the entry in front has the same
    capacity, the repeated call reports success and has overwritten that entry. *)
Theorem C138_retry_damages :
  forall rsz f l tail k s0 s it1 env, ready rsz f l tail k s0 s it1 ->
  forall p, k = S p -> (exists sp, l !! p = Some sp /\ st_cap sp = st_cap s) ->
  exists it2 e it3, r_set_previous (entry_of s) (scripted (FErr 0 :: env) it1) = (it2, Err e) /\
    f_data (it_file it2) = recdb_image 0 l ++ tail /\
    r_set_previous (entry_of s) (scripted [] it2) = (it3, Ret tt) /\
    f_data (it_file it3) = recdb_image 0 (<[p := s]> l) ++ tail.
Proof.
  intros rsz f l tail k s0 s it1 env Hrd p -> (sp & Hp & Hcsp).
  destruct (ready_facts _ _ _ _ _ _ _ _ Hrd) as (Hfd & Hlens & Hpos & H1 & Hk1 & Hh & Hle & Hoff).
  pose proof Hrd as (_ & _ & _ & _ & _ & Hfi & _ & Hk & Hts & Hfs & Hz & Hcap & _).
  set (front := recdb_header 1 like_type 0 (Z.of_nat (length l)) ++ images (take (S p) l)) in *.
  assert (Hfront : length front = length (recdb_image 0 (take (S p) l))).
  { unfold front, recdb_image. by rewrite !app_length. }
  destruct (ia_entry _ _ _ _ _ H1) as (s1 & Hs1 & Hre); [lia|]. rewrite Hk1 in Hs1. injection Hs1 as <-.
  destruct (set_previous_refused s (scripted (FErr 0 :: env) it1) env) as (it2 & e & E2 & _ & _ & _ & Hq2).
  { cbn [scripted it_index]. rewrite (ia_index _ _ _ _ _ H1). lia. }
  { cbn [scripted it_entry]. congruence. }
  { apply Hh. }
  { done. }
  { apply Hts. }
  { exact Hle. }
  { change (f_pos (it_file it1) <= length (f_data (it_file it1)))%nat. rewrite Hpos, Hfd, !app_length. lia. }
  apply quiet_fields in Hq2 as [_ Hp2].
  change (f_pos (it_file it2) = f_pos (it_file it1) - Z.to_nat (st_cap s))%nat in Hp2. rewrite Hoff in Hp2.
  destruct (C138_retry_where _ _ _ _ _ _ _ _ it2 _ e Hrd E2) as (j & Hj & Hd2 & Hp2' & it3 & H).
  assert (j = 0%nat) as -> by lia. rewrite torn_none in Hd2, H by done. rewrite Nat.add_0_r in H.
  assert (Hfsp : stored_fits sp) by (eapply Forall_lookup_1; [exact Hfi|done]).
  assert (Hlsp : length (stored_bytes sp) = length (stored_bytes s)) by (unfold stored_fits in *; lia).
  set (head := recdb_header 1 like_type 0 (Z.of_nat (length l)) ++ images (take p l)).
  assert (Hbegin : length (recdb_image 0 (take (S p) l)) = (length head + length (stored_bytes s))%nat).
  { rewrite <- Hfront. unfold front, head. rewrite (take_S_r _ _ _ Hp), images_app.
    change (images [sp]) with (stored_bytes sp ++ []). rewrite app_nil_r, !app_length. lia. }
  assert (Hall : recdb_image 0 l ++ tail = head ++ stored_bytes sp ++ images (drop (S p) l) ++ tail).
  { unfold recdb_image, head. fold (images l). rewrite <- (take_drop_middle l p sp Hp) at 2. rewrite images_app.
    change (images (sp :: drop (S p) l)) with (stored_bytes sp ++ images (drop (S p) l)). by rewrite <- !app_assoc. }
  assert (Hnew : recdb_image 0 (<[p := s]> l) ++ tail = head ++ stored_bytes s ++ images (drop (S p) l) ++ tail).
  { unfold recdb_image, head. fold (images (<[p := s]> l)). pose proof (lookup_lt_Some _ _ _ Hp).
    rewrite insert_length, insert_take_drop, images_app by done.
    change (images (s :: drop (S p) l)) with (stored_bytes s ++ images (drop (S p) l)). by rewrite <- !app_assoc. }
  exists it2, e, it3. split; [done|]. split; [done|].
  destruct H as [(_ & E3 & Hd3) | [Hlt _]]; [|lia]. split; [done|].
  rewrite Hd3, Hnew, Hall, Hbegin.
  replace (length head + length (stored_bytes s) - length (stored_bytes s))%nat with (length head) by lia.
  rewrite take_app, <- drop_drop, drop_app, <- Hlsp, drop_app. done.
Qed.
Print Assumptions C138_retry_damages.

(** Entry 1 of two, both of 29 bytes, is to be replaced. *)
Definition ex_last : iter :=
  fst (r_ops 4096 [OpNext; OpNext] (Iter (RHeader 1 like_type 0 2) (new_breader (fset_pos 19 ex_f2)) 0 zero_entry)).

Lemma ex_ready : ready 4096 ex_f2 [ex_b; ex_b'] [] 1 ex_b' ex_like ex_last.
Proof.
  destruct ex_b_ok as [H1 H2]. destruct ex_b'_ok as [H3 H4]. destruct ex_like_ok as [H5 H6].
  split; [lia|]. split; [split; [done|split; [done|by left]]|]. split; [by rewrite app_nil_r|].
  split; [by repeat constructor|]. split; [by apply Forall_cons; split; [|apply Forall_cons; split]|].
  split; [by apply Forall_cons; split; [|apply Forall_cons; split]|]. split; [done|].
  split; [done|]. split; [done|]. split; [done|]. split; [constructor|]. split; [done|].
  exists (Iter (RHeader 1 like_type 0 2) (new_breader (fset_pos 19 ex_f2)) 0 zero_entry), [OpNext; OpNext].
  split; [by vm_compute|]. split; [unfold ex_last; reflexivity|]. split; [reflexivity|]. by vm_compute.
Qed.

(** So it is not so that SetPrevious can be repeated when it failed: the entry is still the old
    one, the one in front of it is gone, and no error is reported. *)
Theorem C138_retry_refuted :
  ~ (forall rsz f l tail k s0 s it1 it2 it3 env e, ready rsz f l tail k s0 s it1 ->
     r_set_previous (entry_of s) (scripted env it1) = (it2, Err e) ->
     r_set_previous (entry_of s) (scripted [] it2) = (it3, Ret tt) ->
     f_data (it_file it3) = recdb_image 0 (<[k := s]> l) ++ tail).
Proof.
  intros H. destruct (C138_retry_damages _ _ _ _ _ _ _ _ [] ex_ready 0%nat) as (it2 & e & it3 & E2 & _ & E3 & Hd);
    [done|by exists ex_b|].
  specialize (H _ _ _ _ _ _ _ _ _ _ _ _ ex_ready E2 E3). rewrite Hd in H. vm_compute in H. discriminate H.
Qed.
Print Assumptions C138_retry_refuted.

(** Nor does a failed call leave the entry as it was: after 13 bytes in the three first writes
    the new user has the old dislikes. *)
Theorem C138_unchanged_refuted :
  ~ (forall rsz f l tail k s0 s it1 it2 env e, ready rsz f l tail k s0 s it1 ->
     r_set_previous (entry_of s) (scripted env it1) = (it2, Err e) ->
     f_data (it_file it2) = recdb_image 0 l ++ tail).
Proof.
  intros H.
  specialize (H _ _ _ _ _ _ _ _ (fst (r_set_previous (entry_of ex_b') (scripted [FOk; FOk; FOk; FErr 0] (ex_at 4096 ex_f1 1))))
    [FOk; FOk; FOk; FErr 0] (EMsg "failed to SetPrevious") (proj1 ex_rewriting) ltac:(by vm_compute)).
  vm_compute in H. discriminate H.
Qed.
Print Assumptions C138_unchanged_refuted.

(** What the theorems speak about: a failed call that has written nothing, and its repetition. *)
Example C138_case :
  ready 4096 ex_f2 [ex_b; ex_b'] [] 1 ex_b' ex_like ex_last /\
  let it2 := fst (r_set_previous (entry_of ex_like) (scripted [FErr 0] ex_last)) in
  snd (r_set_previous (entry_of ex_like) (scripted [FErr 0] ex_last)) = Err (EMsg "failed to SetPrevious") /\
  snd (r_set_previous (entry_of ex_like) (scripted [] it2)) = Ret tt /\
  f_data (it_file (fst (r_set_previous (entry_of ex_like) (scripted [] it2)))) = recdb_image 0 [ex_like; ex_b'].
Proof. split; [apply ex_ready|]. by vm_compute. Qed.
