(** What a crash during Recover leaves, and opening files that are short. *)
From Verif Require Import Base GoIO Lock Delta SpecFile SpecLock SpecCrash SpecDelta DeltaSession GoIOFacts
  CodecFacts LockFacts DeltaFacts DeltaRecoverFacts DeltaStoreFacts DeltaHistFacts DeltaCrashFacts.

(** Valid records are encodings of entries. *)
Lemma good_record_ent r : good_record r -> Forall is_byte r -> exists x, ent_typed x /\ rec_of x = r.
Proof.
  intros [Hl Hv] Hb. destruct (split_record r Hl) as (op & u & i & s & -> & Hu & Hi).
  rewrite !Forall_app in Hb. destruct Hb as (Hop & Hbu & Hbi & Hs).
  apply (proj1 (Forall_singleton _ _)) in Hop, Hs.
  exists (be_dec u, ItemDelta (be_dec i) op). split.
  - split; [done|]. split; unfold is_u64; cbn [fst snd id_item].
    + by apply be_dec_u64.
    + by apply be_dec_u64.
  - unfold rec_of. cbn [fst snd id_item id_op]. unfold valid_record in Hv.
    rewrite !app_assoc, last_snoc in Hv. injection Hv as ->.
    assert (Eu : be_enc 8 (be_dec u) = u) by (rewrite <- Hu; by apply be_enc_dec).
    assert (Ei : be_enc 8 (be_dec i) = i) by (rewrite <- Hi; by apply be_enc_dec).
    rewrite op_record_enc. cbv zeta. rewrite Eu, Ei.
    rewrite <- !app_assoc. do 4 f_equal. rewrite !app_assoc. rewrite take_app_alt; [done|].
    rewrite !app_length, Hu, Hi. done.
Qed.

Lemma good_records_ents rs : Forall good_record rs -> Forall (Forall is_byte) rs ->
  exists E, Forall ent_typed E /\ map rec_of E = rs.
Proof.
  induction 1 as [|r rs Hr _ IH]; intros Hb; [by exists []|].
  apply Forall_cons in Hb as [Hb Hbs]. destruct (IH Hbs) as (E & HE & <-).
  destruct (good_record_ent r Hr Hb) as (x & Hx & <-). exists (x :: E). split; [by constructor|done].
Qed.

(** ** Opening a recovered file *)

Lemma recover_opens csz f out x : usable f -> f_pos f = 0%nat -> (0 < csz)%nat ->
  f_data f !! 9%nat = Some x -> x <> 0 ->
  Forall is_byte (f_data f) -> Z.of_nat (length (f_data f)) < 2 ^ 32 * 18 ->
  recovers_to (f_data f) out ->
  exists E f1 f' t, Forall ent_typed E /\ Z.of_nat (length E) < 2 ^ 32 /\ out = img 0 E /\
    usable f1 /\ f_data f1 = out /\ d_open f1 = (f', Ret t) /\ d_open_maybe_recover csz f = (f', Ret t).
Proof.
  intros Hu Hp Hcsz Hx Hne Hb Hl Hout.
  destruct (recovers_image _ _ Hout) as (rs & -> & Hg & Hn & Hbr).
  destruct (good_records_ents rs Hg (Hbr Hb)) as (E & HE & <-). rewrite map_length in Hn.
  destruct (open_locked csz f (img 0 E) E x) as (f1 & f' & t & ? & ? & ? & ?); try done; [lia|].
  exists E, f1, f', t. split; [done|]. split; [lia|]. done.
Qed.

Lemma open_unlocked csz f E : usable f -> Forall ent_typed E -> Z.of_nat (length E) < 2 ^ 32 ->
  f_data f = img 0 E ->
  exists f' t, d_open f = (f', Ret t) /\ d_open_maybe_recover csz f = (f', Ret t).
Proof.
  intros (Hc & He & Hp) Ht Hn Hd.
  unfold d_open_maybe_recover, iobind at 1, iomaperr at 1.
  change d_is_locked with (is_locked_at (Z.of_nat 9)).
  assert (Hx : f_data f !! 9%nat = Some 0) by (by rewrite Hd).
  rewrite (is_locked_ok 9 0) by done. cbn [negb Z.eqb]. unfold iobind, ioret.
  destruct (d_open_image f E) as (p & Hp' & Ho); try done. cbn zeta in Ho. rewrite Ho. eauto.
Qed.

(** What the storage opened on [img 0 E] answers. *)
Lemma opened_view f f' t E : usable f -> Forall ent_typed E -> Z.of_nat (length E) < 2 ^ 32 ->
  f_data f = img 0 E -> d_open f = (f', Ret t) ->
  f_data f' = img 1 E /\ ds_file t = f' /\ ds_total t = Z.of_nat (length E) /\
  forall u i, d_get t u i = latest E u i.
Proof.
  intros (Hc & He & Hp) Ht Hn Hd Ho.
  destruct (d_open_image f E) as (p & Hp' & Ho'); try done. cbn zeta in Ho'. rewrite Ho in Ho'.
  injection Ho' as -> ->. split; [done|]. split; [done|]. split; [done|]. intros u i.
  unfold d_get. cbn [ds_new ds_cache]. rewrite lookup_empty, group_lookup. unfold latest, flast.
  by destruct (of_user u E).
Qed.

Lemma splice_0_take j (a d : list byte) : take j a = take j d -> splice 0 (take j a) d = d.
Proof.
  intros E. unfold splice. rewrite take_0, app_nil_l, E. cbn [Nat.add].
  rewrite take_length. destruct (decide (j <= length d)%nat).
  - rewrite Nat.min_l by lia. apply take_drop.
  - rewrite Nat.min_r, drop_all, app_nil_r by lia. by rewrite take_ge by lia.
Qed.

Lemma recovers_insert_8 d out : take 8 d = delta_magic -> recovers_to d out -> recovers_to (<[8%nat := 1]> d) out.
Proof.
  intros Hm [(h & rs & rest & -> & Hh & Hf & Hr & ->) | [Hbad ->]].
  - left. destruct h as [|h0 h]; [done|]. exists (1 :: h), rs, rest. done.
  - right. split; [|done]. destruct Hbad as [? | Hl]; [done|]. right. by rewrite insert_length.
Qed.

(** Dying in Recover before the lock byte is rewritten leaves the same to recover. *)
Lemma recover_crash_early d out j : take 8 d = delta_magic -> (10 <= length d)%nat -> recovers_to d out -> (j <= 9)%nat ->
  let d' := replay (take j (wsets 0 out ++ [WTrunc (length out)])) d in
  recovers_to d' out /\ d' !! 9%nat = d !! 9%nat /\ length d' = length d /\ (Forall is_byte d -> Forall is_byte d').
Proof.
  intros Hm Hl Hr Hj d'.
  destruct (recovers_image _ _ Hr) as (rs & Hout & Hg & Hn & Hbr).
  assert (Ho8 : take 8 out = delta_magic) by (by rewrite Hout).
  assert (Ho9 : take 9 out = delta_magic ++ [1]) by (by rewrite Hout).
  assert (Hol : (14 <= length out)%nat) by (rewrite Hout, image_length by done; lia).
  assert (Ed : d' = splice 0 (take j out) d).
  { unfold d'. rewrite take_app_le by (rewrite wsets_length; lia). rewrite wsets_take.
    by rewrite replay_wsets by (right; lia). }
  assert (Hcases : d' = d \/ d' = <[8%nat := 1]> d).
  { rewrite Ed. destruct (decide (j <= 8)%nat) as [H8 | H8].
    - left. apply splice_0_take.
      replace (take j out) with (take j (take 8 out)) by (rewrite take_take; f_equal; lia).
      replace (take j d) with (take j (take 8 d)) by (rewrite take_take; f_equal; lia). by rewrite Ho8, Hm.
    - right. replace j with 9%nat by lia. rewrite Ho9.
      rewrite <- (take_drop 8 d) at 2. rewrite Hm.
      assert (Hd8 : (2 <= length (drop 8 d))%nat) by (rewrite drop_length; lia).
      unfold splice. rewrite take_0. cbn [app Nat.add length delta_magic].
      replace (drop 9 d) with (drop 1 (drop 8 d)) by (by rewrite drop_drop).
      destruct (drop 8 d) as [|x l]; [cbn in Hd8; lia|]. done. }
  destruct Hcases as [-> | ->].
  - done.
  - split; [by apply recovers_insert_8|]. split; [by rewrite list_lookup_insert_ne|].
    split; [apply insert_length|]. intros. by apply Forall_insert.
Qed.

Lemma recover_crash_late d out j : (length out < j)%nat ->
  replay (take j (wsets 0 out ++ [WTrunc (length out)])) d = out.
Proof.
  intros Hj. rewrite take_ge by (rewrite app_length, wsets_length; cbn; lia).
  rewrite replay_app, replay_wsets by (right; lia). apply resize_splice.
Qed.
