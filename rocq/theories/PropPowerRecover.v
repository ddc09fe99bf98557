(** Property C128: a power failure while a delta file is recovered. *)
From Verif Require Import Base GoIO Lock Delta SpecFile SpecLock SpecCrash SpecDelta SpecPower DeltaSession GoIOFacts
  CodecFacts LockFacts DeltaFacts DeltaRecoverFacts DeltaStoreFacts DeltaHistFacts DeltaCrashFacts
  DeltaRecCrashFacts PowerFacts PropRecoverCrash.

(** ** What the copy back leaves on disk *)

Section copy_back.
  Context (d out : list byte) (Hl : (length out <= length d)%nat).
  Let log := wsets 0 out ++ [WTrunc (length out)].

  Lemma copy_state j : replay (take j log) d = splice 0 (take j out) d \/ replay (take j log) d = out.
  Proof using Hl.
    destruct (decide (j <= length out)%nat) as [Hj | Hj].
    - left. unfold log. rewrite take_app_le by (rewrite wsets_length; lia). rewrite wsets_take.
      by rewrite replay_wsets by (right; lia).
    - right. rewrite take_ge by (unfold log; rewrite app_length, wsets_length; cbn; lia). unfold log.
      rewrite replay_app, replay_wsets by (right; lia). cbn. apply resize_splice.
  Qed.

  Lemma copy_state_lookup j i : (i < length out)%nat ->
    replay (take j log) d !! i = if (i <? j)%nat then out !! i else d !! i.
  Proof using Hl.
    intros Hi. destruct (decide (j <= length out)%nat) as [Hj | Hj].
    - unfold log. rewrite take_app_le by (rewrite wsets_length; lia). rewrite wsets_take.
      rewrite replay_wsets by (right; lia). unfold splice. rewrite take_0, app_nil_l. cbn [Nat.add].
      rewrite take_length, Nat.min_l by lia.
      destruct (Nat.ltb_spec i j).
      + rewrite lookup_app_l by (rewrite take_length; lia). by rewrite lookup_take by lia.
      + rewrite lookup_app_r by (rewrite take_length; lia). rewrite take_length, Nat.min_l, lookup_drop by lia. f_equal. lia.
    - rewrite (proj2 (Nat.ltb_lt i j)) by lia.
      rewrite take_ge by (unfold log; rewrite app_length, wsets_length; cbn; lia). unfold log.
      rewrite replay_app, replay_wsets by (right; lia). cbn. by rewrite resize_splice.
  Qed.

  Lemma copy_state_length j : length (replay (take j log) d) = length d \/ length (replay (take j log) d) = length out.
  Proof using Hl.
    destruct (copy_state j) as [-> | ->]; [left|by right]. rewrite splice_length, take_length. lia.
  Qed.

  Lemma copy_state_bytes j : Forall is_byte d -> Forall is_byte out -> Forall is_byte (replay (take j log) d).
  Proof using Hl.
    intros Hd Ho. destruct (copy_state j) as [-> | ->]; [|done].
    unfold splice. rewrite take_0, app_nil_l. apply Forall_app. split; [by apply Forall_take|by apply Forall_drop].
  Qed.

  Context (B : nat) (blocks : nat -> nat) (len : nat).
  Let p := power_image B blocks len d log.

  Lemma copied_length : length p = length d \/ length p = length out.
  Proof using Hl. unfold p. rewrite power_length. apply copy_state_length. Qed.

  Lemma copied_lookup i : (i < length out)%nat ->
    p !! i = if (i <? blocks (i / B))%nat then out !! i else d !! i.
  Proof using Hl.
    intros Hi. unfold p. rewrite power_lookup by (destruct (copy_state_length len); lia).
    rewrite copy_state_lookup by done.
    destruct (lookup_lt_is_Some_2 out i Hi) as [x ->].
    destruct (lookup_lt_is_Some_2 d i ltac:(lia)) as [y ->]. by destruct (_ <? _)%nat.
  Qed.

  Lemma copied_bytes : Forall is_byte d -> Forall is_byte out -> Forall is_byte p.
  Proof using Hl.
    intros Hd Ho. apply Forall_lookup. intros i b Hb.
    assert (Hi : (i < length (replay (take len log) d))%nat) by (rewrite <- (power_length B blocks); by apply lookup_lt_Some in Hb).
    unfold p in Hb. rewrite power_lookup in Hb by done. injection Hb as <-.
    destruct (replay (take (blocks (i / B)%nat) log) d !! i) as [b|] eqn:E; [|by unfold is_byte; cbn].
    pose proof (copy_state_bytes (blocks (i / B)%nat) Hd Ho) as Hs. rewrite Forall_lookup in Hs. by eapply Hs.
  Qed.
End copy_back.

(** * C128
    Full claim: when the power fails while a file is recovered, opening it again gives
    what the recovery would have given.

    False, and not only in the ways of C29.  The recovery of a file in which a record is
    damaged moves the records after it.  Here the second block is on disk as the recovery
    wrote it and the others are not: the record of user 5, which nothing was wrong with
    and which the recovery keeps, is gone. *)
Theorem C128_lost_refuted :
  exists (csz B : nat) (blocks : nat -> nat) (len : nat) (d : list byte) (f' f1 f2 : file) (t1 t2 : dstore),
    let f := open_file KOs d in
    let bad := <[0%nat := 99]> (op_record 43 3 4) in
    let recs := [op_record 43 5 6; op_record 43 7 8; op_record 43 9 10] in
    d = delta_magic ++ [1; 1] ++ be32 4 ++ concat (bad :: recs) /\
    d_recover csz f = (f', Ret tt) /\ f_data f' = delta_image 0 recs /\
    d_open_maybe_recover csz f = (f1, Ret t1) /\ d_get t1 5 6 = Some 43 /\
    d_open_maybe_recover csz (open_file KOs (power_image B blocks len d (written_by f f'))) = (f2, Ret t2) /\
    d_get t2 5 6 = None.
Proof.
  exists 512%nat, 32%nat, (fun b => if (b =? 1)%nat then 100%nat else 0%nat), 0%nat.
  eexists _, _, _, _, _, _. cbv zeta. split; [reflexivity|].
  split; [vm_compute; reflexivity|]. split; [vm_compute; reflexivity|].
  split; [vm_compute; reflexivity|]. split; [vm_compute; reflexivity|].
  split; [vm_compute; reflexivity|]. vm_compute. reflexivity.
Qed.
Print Assumptions C128_lost_refuted.

(** True if all records of the file are valid, for blocks of at least 14 bytes: if the
    header is on disk as it was before its flag was cleared, or as it is in the end, or
    announced the right number already, then every power failure during the recovery,
    and after it, is harmless.  At most a torn rest is behind the records. *)
Theorem C128_whole_records_partial :
  forall csz B blocks len f f' v x count recs rest,
  usable f -> f_pos f = 0%nat -> (0 < csz)%nat -> (14 <= B)%nat ->
  f_data f = delta_magic ++ [v; x] ++ count ++ concat recs ++ rest -> x <> 0 -> length count = 4%nat ->
  Forall (fun r => length r = 18%nat /\ valid_record r) recs -> (length rest < 18)%nat ->
  Forall is_byte (f_data f) -> Z.of_nat (length (f_data f)) < 2 ^ 32 * 18 ->
  d_recover csz f = (f', Ret tt) ->
  (blocks 0 <= 9 \/ 14 <= blocks 0 \/ count = be32 (Z.of_nat (length recs)))%nat ->
  forall g, usable g -> f_pos g = 0%nat -> f_data g = power_image B blocks len (f_data f) (written_by f f') ->
  exists f1 t1 f2 t2 tail,
    d_open_maybe_recover csz f = (f1, Ret t1) /\ d_open_maybe_recover csz g = (f2, Ret t2) /\
    f_data f1 = delta_image 1 recs /\ f_data f2 = f_data f1 ++ tail /\ (length tail <= length rest)%nat /\
    d_total_count t1 = Z.of_nat (length recs) /\ d_total_count t2 = d_total_count t1 /\
    forall user item, d_get t2 user item = d_get t1 user item.
Proof.
  intros csz B blocks len f f' v x count recs rest Hu Hp Hcsz HB Hfd Hne Hcnt Hrecs Hrest Hb Hl Hrec Hj g Hgu Hgp Hgd.
  remember (delta_image 0 recs) as out eqn:Hod.
  assert (Hfil : filter valid_record recs = recs).
  { clear - Hrecs. induction Hrecs as [|r l [_ Hr] _ IH]; [done|]. rewrite filter_cons_True by done. by rewrite IH. }
  assert (Hl18 : Forall (fun r => length r = 18%nat) recs) by (by eapply Forall_impl; [exact Hrecs|intros ? [? _]]).
  assert (Hout : recovers_to (f_data f) out).
  { left. exists ([v; x] ++ count), recs, rest. rewrite Hfd. split; [by rewrite <- !app_assoc|].
    split; [rewrite app_length, Hcnt; done|]. split; [done|]. split; [done|]. by rewrite Hfil, Hod. }
  assert (Hx9 : f_data f !! 9%nat = Some x) by (by rewrite Hfd).
  destruct (recover_opens csz f out x) as (E & f0 & f1 & t1 & HE & HEl & Eout & Hu0 & Hd0 & Ho1 & Hr1); try done.
  destruct (opened_view f0 f1 t1 E) as (V1 & _ & V2 & V3); try done; [by rewrite Hd0|].
  assert (Hn : length E = length recs /\ img 1 E = delta_image 1 recs).
  { assert (Hc : concat recs = concat (map rec_of E)).
    { rewrite Hod in Eout. unfold img in Eout. rewrite !delta_image_enc in Eout.
      assert (Ha : drop 14 (delta_magic ++ [1; 0] ++ be_enc 4 (Z.of_nat (length recs)) ++ concat recs) = concat recs)
        by (rewrite !app_assoc; apply drop_app_alt; by rewrite !app_length, be_enc_length).
      rewrite Eout in Ha. rewrite <- Ha. rewrite !app_assoc. apply drop_app_alt. by rewrite !app_length, be_enc_length. }
    assert (Hlen : length E = length recs).
    { assert (L : (18 * length recs = 18 * length E)%nat); [|lia].
      rewrite <- concat_18_length by done. rewrite Hc, concat_18_length by apply recs_len. by rewrite map_length. }
    split; [done|]. unfold img. rewrite !delta_image_enc, map_length, Hc, Hlen. done. }
  destruct Hn as [Hn Himg].
  assert (Hrem : frem f = f_data f) by (unfold frem; by rewrite Hp, drop_0).
  rewrite (d_recover_ok csz f out) in Hrec; rewrite ?Hrem; try done; [|by destruct Hu as (? & ? & _)].
  injection Hrec as <-.
  assert (Hw : written_by f (File (f_kind f) out 0 false [] (f_log f ++ wsets 0 out ++ [WTrunc (length out)])) =
    wsets 0 out ++ [WTrunc (length out)]) by (unfold written_by; cbn [f_log]; by rewrite drop_app_alt).
  rewrite Hw in Hgd.
  assert (Hol : length out = (14 + 18 * length recs)%nat).
  { rewrite Hod, delta_image_enc, !app_length, be_enc_length, concat_18_length by done. cbn. lia. }
  assert (Hdl : length (f_data f) = (length out + length rest)%nat).
  { rewrite Hfd, Hol, !app_length, Hcnt, concat_18_length by done. cbn. lia. }
  assert (Hob : Forall is_byte out).
  { assert (Hcb : Forall is_byte (concat recs)) by (rewrite Hfd, !Forall_app in Hb; tauto).
    rewrite Hod, delta_image_enc, !Forall_app. split; [by repeat constructor|]. split; [by repeat constructor|].
    split; [apply be_enc_bytes|done]. }
  (* old and new content agree except in the header *)
  assert (Hsame : forall i, (i < 8 \/ 14 <= i)%nat -> (i < length out)%nat -> f_data f !! i = out !! i).
  { intros i Hi Hil. rewrite Hod, delta_image_enc, Hfd. destruct Hi as [Hi | Hi].
    - rewrite !lookup_app_l by (cbn; lia). done.
    - rewrite !app_assoc. rewrite (lookup_app_r (_ ++ be_enc 4 _)) by (rewrite !app_length, be_enc_length; cbn; lia).
      rewrite (lookup_app_l (_ ++ concat recs)).
      2:{ rewrite !app_length, Hcnt, concat_18_length by done. cbn. lia. }
      rewrite lookup_app_r by (rewrite !app_length, Hcnt; cbn; lia).
      by rewrite !app_length, Hcnt, be_enc_length. }
  assert (Hpl : length (f_data g) = length (f_data f) \/ length (f_data g) = length out).
  { rewrite Hgd. apply copied_length. lia. }
  assert (Hpb : Forall is_byte (f_data g)) by (rewrite Hgd; apply copied_bytes; [lia|done|done]).
  assert (Hpi : forall i, (i < length out)%nat -> f_data g !! i = if (i <? blocks (i / B))%nat then out !! i else f_data f !! i).
  { intros i Hi. rewrite Hgd. apply copied_lookup; [lia|done]. }
  set (tail := drop (length out) (f_data g)).
  assert (Htl : (length tail <= length rest)%nat) by (unfold tail; rewrite drop_length; lia).
  assert (Hfin : exists f2 t2 tail, d_open_maybe_recover csz g = (f2, Ret t2) /\ (length tail <= length rest)%nat /\
    f_data f2 = img 1 E ++ tail /\ ds_total t2 = Z.of_nat (length E) /\ forall u i, d_get t2 u i = latest E u i).
  { destruct (decide (blocks 0 <= 9)%nat) as [Hj9|Hj9].
    - set (v' := if (8 <? blocks 0)%nat then 1 else v).
      assert (Hg : f_data g = delta_magic ++ [v'; x] ++ count ++ concat recs ++ tail).
      { rewrite <- (take_drop (length out) (f_data g)). fold tail.
        rewrite !app_assoc. f_equal. apply list_eq. intros i.
        assert (Hh : length (((delta_magic ++ [v'; x]) ++ count) ++ concat recs) = length out).
        { rewrite Hol, !app_length, Hcnt, concat_18_length by done. cbn. lia. }
        destruct (decide (i < length out)%nat) as [Hi|Hi]; [|rewrite lookup_take_ge by lia; symmetry; apply lookup_ge_None_2; lia].
        rewrite lookup_take, Hpi by done.
        assert (Hd' : (((delta_magic ++ [v'; x]) ++ count) ++ concat recs) !! i =
          if (i =? 8)%nat then Some v' else f_data f !! i).
        { rewrite <- !app_assoc. rewrite Hfd. rewrite (app_assoc count _ rest), (app_assoc [v; x] _ rest), (app_assoc delta_magic _ rest).
          rewrite (lookup_app_l _ rest).
          2:{ rewrite !app_length, Hcnt, concat_18_length by done. cbn. lia. }
          destruct (Nat.eqb_spec i 8) as [-> | Hi8]; [done|].
          destruct (decide (i < 8)%nat); [by rewrite !lookup_app_l by (cbn; lia)|].
          rewrite !(lookup_app_r delta_magic) by (cbn; lia). cbn [length delta_magic].
          replace (i - 8)%nat with (S (i - 9)) by lia. done. }
        rewrite Hd'. destruct (Nat.eqb_spec i 8) as [-> | Hi8].
        - rewrite Nat.div_small by lia. unfold v'. destruct (_ <? _)%nat; [by rewrite Hod|by rewrite Hfd].
        - destruct (Nat.ltb_spec i (blocks (i / B)%nat)) as [Hlt|]; [|done]. symmetry. apply Hsame; [|done].
          destruct (decide (i < 14)%nat); [|lia]. rewrite Nat.div_small in Hlt by lia. lia. }
      assert (Hgout : recovers_to (f_data g) out).
      { left. exists ([v'; x] ++ count), recs, tail. rewrite Hg at 1. split; [by rewrite <- !app_assoc|].
        split; [rewrite app_length, Hcnt; done|]. split; [done|]. split; [lia|]. by rewrite Hfil, Hod. }
      destruct (recover_opens csz g out x) as (E' & g0 & f2 & t2 & _ & _ & _ & Hg0 & Hgd0 & Hog & Hrg);
        try done; [by rewrite Hg|lia|].
      destruct (opened_view g0 f2 t2 E) as (W1 & _ & W2 & W3); try done; [by rewrite Hgd0|].
      exists f2, t2, []. split; [done|]. split; [cbn; lia|]. by rewrite app_nil_r.
    - assert (Hg : f_data g = img 0 E ++ tail).
      { rewrite <- Eout. rewrite <- (take_drop (length out) (f_data g)). fold tail. f_equal. apply list_eq. intros i.
        destruct (decide (i < length out)%nat) as [Hi|Hi]; [|rewrite lookup_take_ge by lia; symmetry; apply lookup_ge_None_2; lia].
        rewrite lookup_take, Hpi by done.
        destruct (Nat.ltb_spec i (blocks (i / B)%nat)) as [Hlt|Hge]; [done|].
        destruct (decide (i < 8 \/ 14 <= i)%nat) as [Hs|Hs]; [by apply Hsame|].
        rewrite Nat.div_small in Hge by lia. destruct Hj as [?|[?|Hc]]; [lia|lia|].
        rewrite Hod, delta_image_enc, Hfd, Hc.
        rewrite !(lookup_app_r delta_magic) by (cbn; lia). rewrite !(lookup_app_r [_; _]) by (cbn; lia).
        rewrite !lookup_app_l; [done|rewrite be_enc_length; cbn; lia|unfold be32; cbn; lia]. }
      destruct (open_tail csz g E tail) as (f2 & t2 & A1 & A2 & A3 & A4); try done.
      exists f2, t2, tail. done. }
  destruct Hfin as (f2 & t2 & tl & Hrg & Htail & W1 & W2 & W3).
  exists f1, t1, f2, t2, tl. split; [done|]. split; [done|]. split; [by rewrite V1|].
  split; [by rewrite W1, V1|]. split; [done|].
  unfold d_total_count. rewrite V2, W2, Hn. split; [done|]. split; [done|].
  intros u i. by rewrite V3, W3.
Qed.
Print Assumptions C128_whole_records_partial.

(** A process died while the third record was written; the power fails while its file is
    recovered, with blocks of 16 bytes: the flag is still set, the first record is in a
    block of the recovered file, and the length is the old one. *)
Example C128_case :
  let recs := [op_record 43 1 2; op_record 45 3 4] in
  let f := open_file KOs (delta_magic ++ [1; 1] ++ be32 2 ++ concat recs ++ [43; 0; 7]) in
  exists f', d_recover 8 f = (f', Ret tt) /\
    (let blocks n := if (n =? 0)%nat then 9%nat else if (n =? 1)%nat then 100%nat else 0%nat in
     match d_open_maybe_recover 8 (open_file KOs (power_image 16 blocks 0 (f_data f) (written_by f f'))) with
     | (f2, Ret t2) => f_data f2 = delta_image 1 recs /\ d_get t2 1 2 = Some 43 /\ d_get t2 3 4 = Some 45
     | _ => False
     end).
Proof. cbv zeta. eexists. split; [vm_compute; reflexivity|]. vm_compute. done. Qed.
