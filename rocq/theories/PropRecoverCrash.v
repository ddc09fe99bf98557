(** More on C29 (PropDeltaCrash.v): dying while a file without damaged records is
    recovered. *)
From Verif Require Import Base GoIO Lock Delta SpecFile SpecLock SpecCrash SpecDelta DeltaSession GoIOFacts
  CodecFacts LockFacts DeltaFacts DeltaRecoverFacts DeltaStoreFacts DeltaHistFacts DeltaCrashFacts
  DeltaRecCrashFacts PowerFacts.

(** What the copy back leaves after [j] bytes, if from byte [i] on it rewrites what is
    there. *)
Lemma copy_image (d out rest : list byte) i j : (i <= j <= length out)%nat -> (length out <= length d)%nat ->
  drop i d = drop i (out ++ rest) -> splice 0 (take j out) d = out ++ rest.
Proof.
  intros Hj Hl Hd. unfold splice. rewrite take_0, app_nil_l. cbn [Nat.add].
  rewrite take_length, Nat.min_l by lia.
  replace (drop j d) with (drop (j - i) (drop i d)) by (rewrite drop_drop; f_equal; lia).
  rewrite Hd, drop_drop. replace (i + (j - i))%nat with j by lia.
  rewrite <- (take_drop j (out ++ rest)) at 2. f_equal. by rewrite take_app_le by lia.
Qed.

Lemma open_tail csz g E tail : usable g -> Forall ent_typed E -> Z.of_nat (length E) < 2 ^ 32 ->
  f_data g = img 0 E ++ tail ->
  exists f' t, d_open_maybe_recover csz g = (f', Ret t) /\ f_data f' = img 1 E ++ tail /\
    ds_total t = Z.of_nat (length E) /\ forall u i, d_get t u i = latest E u i.
Proof.
  intros Hu Ht Hn Hd.
  assert (Hx : f_data g !! 9%nat = Some 0) by (by rewrite Hd).
  rewrite (PowerFacts.open_unlocked csz g Hu Hx). destruct Hu as (Hc & He & Hp).
  destruct (d_open_tail g E tail) as (p & _ & Ho); [done|done|done|done|]. cbv zeta in Ho. rewrite Ho.
  eexists _, _. split; [done|]. split; [done|]. split; [done|].
  intros u i. unfold d_get. cbn [ds_new ds_cache]. rewrite lookup_empty, group_lookup. unfold latest, flast.
  by destruct (of_user u E).
Qed.

(** If all records of the file are valid, and the count of the header is right or the
    process does not die while it is rewritten (bytes 10 to 13), dying at any moment of
    the recovery is harmless: the next opening knows all records.  At most the torn
    rest is still behind them. *)
Theorem C29_whole_records_partial :
  forall csz f f' j v x count recs rest,
  usable f -> f_pos f = 0%nat -> (0 < csz)%nat ->
  f_data f = delta_magic ++ [v; x] ++ count ++ concat recs ++ rest -> x <> 0 -> length count = 4%nat ->
  Forall (fun r => length r = 18%nat /\ valid_record r) recs -> (length rest < 18)%nat ->
  Forall is_byte (f_data f) -> Z.of_nat (length (f_data f)) < 2 ^ 32 * 18 ->
  d_recover csz f = (f', Ret tt) ->
  (j <= 9 \/ 14 <= j \/ count = be32 (Z.of_nat (length recs)))%nat ->
  forall g, usable g -> f_pos g = 0%nat -> f_data g = crash_image f f' j ->
  exists f1 t1 f2 t2,
    d_open_maybe_recover csz f = (f1, Ret t1) /\ d_open_maybe_recover csz g = (f2, Ret t2) /\
    f_data f1 = delta_image 1 recs /\ (f_data f2 = f_data f1 \/ f_data f2 = f_data f1 ++ rest) /\
    d_total_count t1 = Z.of_nat (length recs) /\ d_total_count t2 = d_total_count t1 /\
    forall user item, d_get t2 user item = d_get t1 user item.
Proof.
  intros csz f f' j v x count recs rest Hu Hp Hcsz Hfd Hne Hcnt Hrecs Hrest Hb Hl Hrec Hj g Hgu Hgp Hgd.
  remember (delta_image 0 recs) as out eqn:Hod.
  assert (Hfil : filter valid_record recs = recs).
  { clear - Hrecs. induction Hrecs as [|r l [_ Hr] _ IH]; [done|]. rewrite filter_cons_True by done. by rewrite IH. }
  assert (Hout : recovers_to (f_data f) out).
  { left. exists ([v; x] ++ count), recs, rest. rewrite Hfd. split; [by rewrite <- !app_assoc|].
    split; [rewrite app_length, Hcnt; done|].
    split; [by eapply Forall_impl; [exact Hrecs|intros ? [? _]]|]. split; [done|]. by rewrite Hfil, Hod. }
  assert (Hx9 : f_data f !! 9%nat = Some x) by (by rewrite Hfd).
  destruct (recover_opens csz f out x) as (E & f0 & f1 & t1 & HE & HEl & Eout & Hu0 & Hd0 & Ho1 & Hr1); try done.
  destruct (opened_view f0 f1 t1 E) as (V1 & _ & V2 & V3); try done; [by rewrite Hd0|].
  assert (Hn : length E = length recs /\ img 1 E = delta_image 1 recs).
  { assert (Hc : concat recs = concat (map rec_of E)).
    { rewrite Hod in Eout. unfold img in Eout. rewrite !delta_image_enc in Eout.
      assert (Ha : drop 14 (delta_magic ++ [1; 0] ++ be_enc 4 (Z.of_nat (length recs)) ++ concat recs) = concat recs)
        by (rewrite !app_assoc; apply drop_app_alt; by rewrite !app_length, be_enc_length).
      rewrite Eout in Ha. rewrite <- Ha. rewrite !app_assoc. apply drop_app_alt. by rewrite !app_length, be_enc_length. }
    assert (Hlen : length E = length recs).
    { assert (L : (18 * length recs = 18 * length E)%nat); [|lia].
      assert (L1 : length (concat recs) = (18 * length recs)%nat).
      { clear - Hrecs. induction Hrecs as [|r l [Hr _] _ IH]; [done|]. cbn. rewrite app_length, IH, Hr. lia. }
      assert (L2 : length (concat (map rec_of E)) = (18 * length (map rec_of E))%nat).
      { pose proof (recs_len E) as R. clear - R. induction R as [|r l Hr _ IH]; [done|]. cbn. rewrite app_length, IH, Hr. lia. }
      rewrite map_length in L2. rewrite <- L1, <- L2. by rewrite Hc. }
    split; [done|]. unfold img. rewrite !delta_image_enc, map_length, Hc, Hlen. done. }
  destruct Hn as [Hn Himg].
  assert (Hrem : frem f = f_data f) by (unfold frem; by rewrite Hp, drop_0).
  rewrite (d_recover_ok csz f out) in Hrec; rewrite ?Hrem; try done; [|by destruct Hu as (? & ? & _)].
  injection Hrec as <-.
  assert (Hw : written_by f (File (f_kind f) out 0 false [] (f_log f ++ wsets 0 out ++ [WTrunc (length out)])) =
    wsets 0 out ++ [WTrunc (length out)]) by (unfold written_by; cbn [f_log]; by rewrite drop_app_alt).
  unfold crash_image in Hgd. rewrite Hw in Hgd.
  assert (Hol : (length out <= length (f_data f))%nat).
  { rewrite Hod, delta_image_enc, Hfd, !app_length, be_enc_length, Hcnt. cbn. lia. }
  assert (Hlen : (10 <= length (f_data f))%nat) by (apply lookup_lt_Some in Hx9; lia).
  assert (Hfin : exists f2 t2 tail, d_open_maybe_recover csz g = (f2, Ret t2) /\ (tail = [] \/ tail = rest) /\
    f_data f2 = img 1 E ++ tail /\ ds_total t2 = Z.of_nat (length E) /\ forall u i, d_get t2 u i = latest E u i).
  { destruct (decide (j <= 9)%nat) as [Hj9|Hj9].
    - destruct (recover_crash_early (f_data f) out j) as (R1 & R2 & R3 & R4); try done.
      { rewrite Hfd. done. }
      rewrite <- Hgd in *.
      destruct (recover_opens csz g out x) as (E' & g0 & f2 & t2 & _ & _ & _ & Hg0 & Hgd0 & Hog & Hrg);
        try done; try (by rewrite R2); try (by rewrite R3); [by apply R4|].
      destruct (opened_view g0 f2 t2 E) as (W1 & _ & W2 & W3); try done; [by rewrite Hgd0|].
      exists f2, t2, []. split; [done|]. split; [by left|]. by rewrite app_nil_r.
    - destruct (decide (length out < j)%nat) as [Hlate|Hlate].
      + rewrite recover_crash_late in Hgd by done. rewrite Eout in Hgd.
        destruct (open_tail csz g E []) as (f2 & t2 & A1 & A2 & A3 & A4); try done; [by rewrite app_nil_r|].
        exists f2, t2, []. split; [done|]. split; [by left|]. done.
      + rewrite take_app_le in Hgd by (rewrite wsets_length; lia). rewrite wsets_take in Hgd.
        rewrite replay_wsets in Hgd by (right; lia).
        assert (Hg : f_data g = out ++ rest).
        { rewrite Hgd. destruct Hj as [Hj|[Hj|Hj]]; [lia| |].
          - apply (copy_image _ _ _ 14); [lia|done|].
            rewrite Hod, delta_image_enc, Hfd, !app_assoc.
            rewrite <- (app_assoc (_ ++ count)), <- (app_assoc (_ ++ be_enc 4 _)).
            by rewrite !drop_app_alt by (rewrite !app_length, ?be_enc_length, ?Hcnt; done).
          - apply (copy_image _ _ _ 10); [lia|done|].
            rewrite Hod, delta_image_enc, Hfd. subst count. done. }
        rewrite Eout in Hg.
        destruct (open_tail csz g E rest) as (f2 & t2 & A1 & A2 & A3 & A4); try done.
        exists f2, t2, rest. split; [done|]. split; [by right|]. done. }
  destruct Hfin as (f2 & t2 & tail & Hrg & Htail & W1 & W2 & W3).
  exists f1, t1, f2, t2. split; [done|]. split; [done|]. split; [by rewrite V1|].
  split. { rewrite W1, V1. destruct Htail as [-> | ->]; [left; by rewrite app_nil_r|by right]. }
  unfold d_total_count. rewrite V2, W2, Hn. split; [done|]. split; [done|].
  intros u i. by rewrite V3, W3.
Qed.
Print Assumptions C29_whole_records_partial.

(** The file of a process that died while nothing was being written: the recovery can
    be cut off anywhere. *)
Example C29_whole_case :
  let recs := [op_record 43 1 2; op_record 45 3 4] in
  let f := open_file KOs (delta_image 1 recs) in
  usable f /\ Forall (fun r => length r = 18%nat /\ valid_record r) recs /\
  delta_image 1 recs = delta_magic ++ [1; 1] ++ be32 2 ++ concat recs ++ [] /\
  exists f', d_recover 8 f = (f', Ret tt) /\ length (written_by f f') = 51%nat /\
    crash_image f f' 12 = delta_image 0 recs.
Proof.
  cbv zeta. split; [by split; [done|split; [done|by left]]|]. split.
  { by repeat (apply Forall_cons; split; [done|]). }
  split; [done|]. eexists. split; [vm_compute; reflexivity|]. split; vm_compute; reflexivity.
Qed.
