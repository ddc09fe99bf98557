(** Property C94: a power failure loses nothing that was flushed. *)
From Verif Require Import Base GoIO Lock Delta SpecFile SpecLock SpecCrash SpecDelta SpecPower DeltaSession GoIOFacts
  CodecFacts DeltaRecoverFacts DeltaStoreFacts DeltaHistFacts DeltaCrashFacts PowerFacts PropDeltaCrash PropDeltaFault.

(** The file [f0] with the operations [ops], all on disk, was opened, and the calls [cs]
    took the storage to [s]. *)
Definition worked (bsz : nat) (f0 : file) (ops : list (Z * Z * Z)) (cs : list dcall) (s : dstore) : Prop :=
  usable f0 /\ Forall op_typed ops /\ f_data f0 = delta_image 0 (map op_bytes ops) /\
  Forall (fun c => ev_typed (event_of c)) cs /\
  exists f1 s0, d_open f0 = (f1, Ret s0) /\ d_calls bsz cs s0 = (s, Ret tt).

Lemma worked_grows bsz f0 ops cs s : worked bsz f0 ops cs s -> Z.of_nat (length ops + length cs) + 1 < 2 ^ 32 ->
  exists h X l, grows f0 (map op_ent ops) h X l s /\ length h = (length ops + length cs + 1)%nat /\
    f_data f0 = img 0 (map op_ent ops).
Proof.
  intros (Hu & Ht & Hd & Hc & f1 & s0 & Ho & Hcs) Hl.
  assert (G0 : grows f0 (map op_ent ops) (map op_event ops ++ [EvFlush]) [] [] s0).
  { eapply grows_open; try done. lia. }
  destruct (grows_calls bsz f0 _ cs _ _ _ _ s G0) as (X & l & G); [|done|done|].
  { rewrite app_length, map_length. cbn. lia. }
  eexists _, X, l. split; [exact G|]. split; [rewrite !app_length, !map_length; cbn; lia|].
  by rewrite Hd, op_ent_rec.
Qed.

(** * C94
    Full claim: when the power fails while a delta file is open, or after it was
    closed, the file can be opened again and has every operation that was in it or was
    flushed, and no other.
    What is true, for blocks of at least 14 bytes: a power failure while the storage is
    open, in or between calls, leaves a file that can be opened and that has all the
    operations it had when it was opened, in their order and before any others. *)
Theorem C94_power_partial :
  forall bsz csz B blocks len f0 ops cs s (g : file),
  worked bsz f0 ops cs s -> Z.of_nat (length ops + length cs) + 1 < 2 ^ 32 ->
  (0 < csz)%nat -> (14 <= B)%nat -> usable g -> f_pos g = 0%nat ->
  f_data g = power_image B blocks len (f_data f0) (written_by f0 (ds_file s)) ->
  exists f' t extra tail, d_open_maybe_recover csz g = (f', Ret t) /\ Forall op_typed extra /\
    f_data (ds_file t) = delta_image 1 (map op_bytes (ops ++ extra)) ++ tail /\
    d_total_count t = Z.of_nat (length (ops ++ extra)) /\
    forall user item, d_get t user item = last_add (map op_event (ops ++ extra)) user item.
Proof.
  intros bsz csz B blocks len f0 ops cs s g W Hl Hcsz HB Hu Hp Hd.
  destruct (worked_grows _ _ _ _ _ W Hl) as (h & X & l & G & Hh & Hd0).
  destruct W as (_ & Hty & _). apply op_ent_typed in Hty as Ht.
  set (E0 := map op_ent ops) in *.
  rewrite (grows_written _ _ _ _ _ _ G), Hd0 in Hd.
  destruct (power_shape f0 E0 h X l s G B blocks len HB) as (hdr & rest & Hp1 & Hh6 & Hb0).
  destruct (power_size f0 E0 h X l s G B blocks len HB) as [Hs1 Hs2].
  pose proof (power_bytes f0 E0 h X l s G Ht B blocks len HB) as Hby.
  rewrite <- Hd in Hp1, Hs1, Hs2, Hby.
  assert (Hconc : forall E f' n tail, n = Z.of_nat (length E) ->
    f_data f' = img 1 E ++ tail -> (exists Y, E = E0 ++ Y) -> Forall ent_typed E ->
    exists extra tail, Forall op_typed extra /\
      f_data (ds_file (DStore (group E) ∅ n 0 f')) = delta_image 1 (map op_bytes (ops ++ extra)) ++ tail /\
      d_total_count (DStore (group E) ∅ n 0 f') = Z.of_nat (length (ops ++ extra)) /\
      forall u i, d_get (DStore (group E) ∅ n 0 f') u i = last_add (map op_event (ops ++ extra)) u i).
  { intros E f' n tail -> Hf' [Y ->] HE. apply Forall_app in HE as [_ HY].
    exists (map ent_op Y), tail. split; [by apply ent_op_typed|].
    assert (Hm : map op_ent (ops ++ map ent_op Y) = E0 ++ Y) by (by rewrite map_app, ent_op_ent).
    cbn [ds_file]. rewrite Hf'. unfold d_total_count. cbn [ds_total]. split; [|split].
    - unfold img. by rewrite op_ent_rec, Hm.
    - rewrite !app_length. unfold E0. by rewrite !map_length.
    - intros u i. rewrite opened_get, <- latest_ops. by rewrite Hm. }
  assert (HlE : Z.of_nat (length E0) < 2 ^ 32) by (unfold E0; rewrite map_length; lia).
  destruct (blocks 0%nat) as [|j].
  - assert (Hg : f_data g = img 0 E0 ++ rest).
    { rewrite Hp1, Hb0, img_enc. by rewrite <- !app_assoc. }
    assert (H9 : f_data g !! 9%nat = Some 0) by (by rewrite Hg, img_enc).
    destruct (d_open_tail g E0 rest) as (p & _ & Ho); try done; [by destruct Hu as (? & ? & _)|].
    cbn zeta in Ho.
    rewrite (open_unlocked csz g Hu H9), Ho.
    edestruct (Hconc E0 (File (f_kind g) (img 1 E0 ++ rest) p false [] (f_log g ++ [WSet 9 1]))) as (extra & tail & Hc); try done.
    { by exists []; rewrite app_nil_r. }
    eexists _, _, extra, tail. split; [done|]. exact Hc.
  - destruct (splits_exists rest) as (recs' & rest' & -> & Hr1 & Hr2).
    destruct (open_recovered csz g E0 hdr recs' rest') as (Y & f' & lg & HY & _ & _ & _ & Ho & Hf'); try done.
    { rewrite Hh in Hs2. lia. }
    rewrite Ho.
    edestruct (Hconc (E0 ++ Y) f') as (extra & tail & Hc); [done| | | |].
    { rewrite Hf'. cbn [f_data]. symmetry. apply app_nil_r. } { by exists Y. } { by apply Forall_app. }
    eexists _, _, extra, tail. split; [done|]. exact Hc.
Qed.
Print Assumptions C94_power_partial.

(** False in four ways, however the storage was used.

    (1) Nothing that was flushed need be there, as nothing is forced to disk. *)
Theorem C94_flushed_lost_refuted :
  forall bsz csz B f0 ops cs s (g : file),
  worked bsz f0 ops cs s -> Z.of_nat (length ops) < 2 ^ 32 ->
  usable g -> f_data g = power_image B (fun _ => 0%nat) 0 (f_data f0) (written_by f0 (ds_file s)) ->
  exists f' t, d_open_maybe_recover csz g = (f', Ret t) /\
    forall user item, d_get t user item = last_add (map op_event ops) user item.
Proof.
  intros bsz csz B f0 ops cs s g (_ & Ht & Hd0 & _) Hl Hu Hd.
  assert (Hg : f_data g = img 0 (map op_ent ops) ++ []).
  { rewrite app_nil_r. unfold img. rewrite <- op_ent_rec, <- Hd0, Hd.
    apply list_eq_same_length with (length (f_data f0)); [done|by rewrite power_length|].
    intros i x y Hi Hx Hy. rewrite power_lookup in Hx by done.
    change (replay (take 0 _) ?d) with d in Hx. rewrite Hy in Hx. cbn in Hx. congruence. }
  assert (H9 : f_data g !! 9%nat = Some 0) by (by rewrite Hg, img_enc).
  destruct (d_open_tail g (map op_ent ops) []) as (p & _ & Ho); try done;
    [by destruct Hu as (? & ? & _)|by apply op_ent_typed|by rewrite map_length|].
  cbn zeta in Ho. rewrite (open_unlocked csz g Hu H9), Ho. eexists _, _. split; [done|].
  intros u i. by rewrite opened_get, latest_ops.
Qed.
Print Assumptions C94_flushed_lost_refuted.

(** (2) Operations that nobody requested can be there.  If the file has grown by [S n]
    records outside the first block, and of what was written only the lock flag and the
    length of the file are on disk, recovery finds [S n] operations with all numbers 0:
    18 zero bytes have the right checksum. *)
Theorem C94_invented_refuted :
  forall bsz csz B f0 ops cs s n (g : file),
  worked bsz f0 ops cs s -> Z.of_nat (length ops + length cs) + 1 < 2 ^ 32 ->
  length (f_data (ds_file s)) = (14 + 18 * (length ops + S n))%nat ->
  (0 < csz)%nat -> (14 <= B <= 14 + 18 * length ops)%nat -> usable g -> f_pos g = 0%nat ->
  let log := written_by f0 (ds_file s) in
  f_data g = power_image B (fun b => if (b =? 0)%nat then 1%nat else 0%nat) (length log) (f_data f0) log ->
  exists f' t, d_open_maybe_recover csz g = (f', Ret t) /\
    f_data (ds_file t) = delta_image 1 (map op_bytes (ops ++ replicate (S n) (0, 0, 0))) /\
    d_get t 0 0 = Some 0.
Proof.
  intros bsz csz B f0 ops cs s n g W Hl Hn Hcsz [HB HB'] Hu Hp log Hd.
  destruct (worked_grows _ _ _ _ _ W Hl) as (h & X & l & G & Hh & Hd0).
  destruct W as (_ & Hty & _). apply op_ent_typed in Hty as Ht.
  set (E0 := map op_ent ops) in *.
  assert (HE0 : length E0 = length ops) by apply map_length.
  pose proof (gr_data _ _ _ _ _ _ G) as Hdat.
  unfold log in Hd. rewrite (grows_written _ _ _ _ _ _ G), Hd0 in Hd. rewrite Hd0 in Hdat.
  set (blocks := fun b => if (b =? 0)%nat then 1%nat else 0%nat) in *.
  set (len := length (WSet 9 1 :: l)) in *.
  destruct (power_shape f0 E0 h X l s G B blocks len HB) as (hdr & rest & Hp1 & Hh6 & Hb0).
  pose proof (power_size f0 E0 h X l s G B blocks len HB) as [_ Hs].
  pose proof (power_bytes f0 E0 h X l s G Ht B blocks len HB) as Hby.
  pose proof (power_length B blocks len (img 0 E0) (WSet 9 1 :: l)) as Hlen.
  assert (Hfin : take len (WSet 9 1 :: l) = WSet 9 1 :: l) by (by apply take_ge).
  rewrite Hfin, <- Hdat, Hn in Hlen.
  assert (Hrest : rest = concat (replicate (S n) (zeros 18))).
  { assert (Hcr : forall k, concat (replicate k (zeros 18)) = zeros (18 * k)).
    { induction k as [|k IH]; [done|]. change (replicate (S k) (zeros 18)) with (zeros 18 :: replicate k (zeros 18)).
      cbn [concat]. rewrite IH. unfold zeros. rewrite <- replicate_add. f_equal. lia. }
    rewrite Hcr. clear Hcr.
    assert (Hlr : length rest = (18 * S n)%nat).
    { rewrite Hp1, !app_length, Hh6, recs_length, HE0 in Hlen. cbn [length delta_magic] in Hlen. lia. }
    apply list_eq_same_length with (18 * S n)%nat; [by rewrite zeros_length|done|].
    intros i x y Hi Hx Hy. rewrite zeros_lookup in Hy by done.
    assert (Hpx : power_image B blocks len (img 0 E0) (WSet 9 1 :: l) !! (14 + 18 * length ops + i)%nat = Some x).
    { rewrite Hp1. rewrite !app_assoc, lookup_app_r; rewrite !app_length, Hh6, recs_length, HE0; cbn [length delta_magic]; [|lia].
      rewrite <- Hx. f_equal. lia. }
    rewrite power_lookup in Hpx by (rewrite Hfin, <- Hdat; lia).
    assert (Hq : blocks ((14 + 18 * length ops + i) / B)%nat = 0%nat).
    { unfold blocks. destruct (Nat.eqb_spec ((14 + 18 * length ops + i) / B) 0) as [E|]; [|done].
      apply Nat.div_small_iff in E; lia. }
    rewrite Hq in Hpx. change (replay (take 0 _) ?d) with d in Hpx.
    rewrite lookup_ge_None_2 in Hpx by (rewrite img_length; lia). cbn in Hpx. congruence. }
  rewrite <- Hd in Hp1, Hs, Hby.
  destruct (open_recovered csz g E0 hdr (replicate (S n) (zeros 18)) []) as (Y & f' & lg & HY & HYr & _ & _ & Ho & Hf'); try done.
  { by rewrite app_nil_r, <- Hrest. } { by apply Forall_replicate. } { cbn. lia. } { lia. }
  assert (HYe : Y = map op_ent (replicate (S n) (0, 0, 0))).
  { rewrite <- (map_dec_rec Y) by done. rewrite HYr.
    assert (Hfl : forall k, filter valid_record (replicate k (zeros 18)) = replicate k (zeros 18)).
    { induction k as [|k IH]; [done|]. change (replicate (S k) (zeros 18)) with (zeros 18 :: replicate k (zeros 18)).
      rewrite filter_cons_True by done. by rewrite IH. }
    rewrite Hfl. rewrite !fmap_replicate. f_equal. }
  rewrite Ho. eexists _, _. split; [done|]. cbn [ds_file]. rewrite Hf'. cbn [f_data]. split.
  - unfold img. rewrite HYe. unfold E0. by rewrite <- map_app, <- op_ent_rec.
  - rewrite opened_get, HYe. unfold E0. rewrite <- map_app, latest_ops.
    assert (Hr : replicate (S n) (0, 0, 0) = replicate n (0, 0, 0) ++ [(0, 0, 0)]) by apply (replicate_cons_app n).
    rewrite Hr, app_assoc, map_app, last_add_app. done.
Qed.
Print Assumptions C94_invented_refuted.

(** (3) After Close had returned, the file may be refused for good.  If of what was
    written only the first block is on disk, it announces records that are not there,
    and it does not say that it needs recovery. *)
Theorem C94_closed_refuted :
  forall bsz csz B f0 ops cs s sh s' (g : file),
  worked bsz f0 ops cs s -> Z.of_nat (length ops + length cs) + 1 < 2 ^ 32 ->
  d_close bsz sh s = (s', Ret tt) -> (length (f_data f0) < length (f_data (ds_file s')))%nat ->
  (14 <= B)%nat -> usable g ->
  let log := written_by f0 (ds_file s') in
  f_data g = power_image B (fun b => if (b =? 0)%nat then length log else 0%nat) 0 (f_data f0) log ->
  exists f' e, d_open_maybe_recover csz g = (f', Err e) /\ f_data f' = f_data g.
Proof.
  intros bsz csz B f0 ops cs s sh s' g W Hl Hc Hgr HB Hu log Hd.
  destruct (worked_grows _ _ _ _ _ W Hl) as (h & X & l & G & Hh & Hd0).
  set (E0 := map op_ent ops) in *. pose proof (gr_inv _ _ _ _ _ _ G) as I.
  assert (Hlh : Z.of_nat (length h) < 2 ^ 32) by lia.
  destruct (close_inv bsz sh h _ s I Hlh) as (s1 & Hc1 & Hd1 & _ & Hlog1). rewrite Hc in Hc1. injection Hc1 as <-.
  set (F := visit sh (ds_new s)) in *.
  set (w := wsets 8 ([1; 1] ++ be_enc 4 (u32 (ds_total s))) ++ wsets (14 + 18 * length (E0 ++ X)) (recs F)).
  assert (Hlog : log = (WSet 9 1 :: l) ++ w ++ [WSet 9 0]).
  { unfold log, written_by. rewrite Hlog1, (flushed_log _ _ _ (E0 ++ X)) by apply I. fold w.
    rewrite (gr_log _ _ _ _ _ _ G), <- !app_assoc, drop_app_alt by done. done. }
  assert (Hrep : replay log (f_data f0) = img 0 ((E0 ++ X) ++ F)).
  { rewrite Hlog, replay_app, <- (gr_data _ _ _ _ _ _ G), replay_app. unfold w.
    rewrite <- (flushed_replays _ _ _ (E0 ++ X)) by apply I. unfold F.
    rewrite (inv_flushed h (E0 ++ X) s sh I Hlh). by rewrite !img_enc. }
  set (En := (E0 ++ X) ++ F) in *.
  rewrite Hd0, Hd1, !img_length in Hgr.
  assert (HEn : Z.of_nat (length En) < 2 ^ 32).
  { unfold En, F. rewrite (app_length (E0 ++ X)), visit_length.
    pose proof (di_total _ _ _ I). pose proof (di_bound _ _ _ I). lia. }
  assert (Hlg : length (f_data g) = (14 + 18 * length E0)%nat).
  { rewrite Hd, power_length. change (replay (take 0 _) ?d) with d. by rewrite Hd0, img_length. }
  assert (Hhd : forall i, (i < 14)%nat -> f_data g !! i = img 0 En !! i).
  { intros i Hi. rewrite Hd, power_lookup by (change (replay (take 0 _) ?d) with d; rewrite Hd0, img_length; lia).
    rewrite Nat.div_small by lia. cbn [Nat.eqb]. rewrite take_ge, Hrep by done.
    destruct (lookup_lt_is_Some_2 (img 0 En) i) as [b ->]; [rewrite img_length; lia|done]. }
  assert (Ht14 : take 14 (f_data g) = delta_magic ++ [1; 0] ++ be_enc 4 (Z.of_nat (length En))).
  { apply list_eq_same_length with 14%nat.
    - rewrite !app_length, be_enc_length. done.
    - rewrite take_length. lia.
    - intros i x y Hi Hx Hy. rewrite lookup_take in Hx by done. rewrite Hhd, img_enc in Hx by done.
      rewrite !app_assoc, lookup_app_l in Hx by (rewrite !app_length, be_enc_length; cbn; lia).
      rewrite <- !app_assoc in Hx. congruence. }
  assert (H9 : f_data g !! 9%nat = Some 0).
  { rewrite <- (lookup_take _ 14) by lia. by rewrite Ht14. }
  assert (Hne : f_data g <> []) by (intros E; rewrite E in Hlg; cbn in Hlg; lia).
  destruct (C27_open_rejects_bad_files g Hu Hne) as (f' & e & Ho & Hf').
  { right. right. right. exists (Z.of_nat (length En)). split; [unfold is_u32; lia|]. split; [|lia].
    assert (Hs : take 4 (drop 10 (f_data g)) = drop 10 (take 14 (f_data g))) by (by rewrite skipn_firstn_comm).
    rewrite Hs, Ht14. done. }
  rewrite (open_unlocked csz g Hu H9), Ho. eexists _, e. split; [done|]. by rewrite fclose_data.
Qed.
Print Assumptions C94_closed_refuted.

(** (4) The same goes for a file that was empty before.  If of what was written only the
    length is on disk, the file has no magic number. *)
Theorem C94_created_refuted :
  forall bsz csz B f0 f1 s0 cs s (g : file),
  usable f0 -> f_data f0 = [] -> d_open f0 = (f1, Ret s0) ->
  Forall (fun c => ev_typed (event_of c)) cs -> d_calls bsz cs s0 = (s, Ret tt) ->
  Z.of_nat (length cs) < 2 ^ 32 -> usable g ->
  let log := written_by f0 (ds_file s) in
  f_data g = power_image B (fun _ => 0%nat) (length log) (f_data f0) log ->
  length (f_data g) = length (f_data (ds_file s)) /\
  exists f' e, d_open_maybe_recover csz g = (f', Err e) /\ f_data f' = f_data g.
Proof.
  intros bsz csz B f0 f1 s0 cs s g Hu0 Hd0 Ho Ht Hc Hl Hu log Hg.
  destruct Hu0 as (Hcl & He & Hp). destruct (d_open_empty f0) as (lg & Ho'); [done|done|]. cbn zeta in Ho'.
  pose proof (creation_log f0 f1 s0 (conj Hcl He) Hd0 Ho) as Hlog.
  rewrite Ho in Ho'. injection Ho' as -> ->. cbn [f_log] in Hlog.
  set (fc := File (f_kind f0) (img 0 []) 0 false [] (f_log f0 ++ wsets 0 (delta_image 0 []))).
  assert (G0 : grows fc [] [] [] [] (DStore ∅ ∅ 0 0 (File (f_kind f0) (img 1 []) 14 false [] lg))).
  { split; [| |done|].
    - rewrite app_nil_l. apply opened_inv; try done; [right; cbn; lia|]. intros x Hx. inversion Hx.
    - cbn [ds_file f_log fc]. rewrite Hlog. by rewrite <- app_assoc.
    - done. }
  destruct (grows_calls bsz fc [] cs [] [] [] _ s G0) as (X & l & G); [cbn; lia|done|done|].
  assert (Hlg : log = wsets 0 (delta_image 0 []) ++ WSet 9 1 :: l).
  { unfold log, written_by. rewrite (gr_log _ _ _ _ _ _ G). cbn [fc f_log]. by rewrite <- app_assoc, drop_app_alt. }
  assert (Hrep : replay log [] = f_data (ds_file s)).
  { rewrite (gr_data _ _ _ _ _ _ G), Hlg, replay_app. by f_equal. }
  assert (Hlen : length (f_data g) = length (f_data (ds_file s))).
  { by rewrite Hg, power_length, take_ge, Hd0, Hrep. }
  split; [done|]. pose proof (di_data _ _ _ (gr_inv _ _ _ _ _ _ G)) as Hds.
  assert (Hge : (14 <= length (f_data g))%nat) by (rewrite Hlen, Hds, img_length; lia).
  assert (Hz : forall i, (i < length (f_data g))%nat -> f_data g !! i = Some 0).
  { intros i Hi. rewrite Hg, power_length in Hi. rewrite Hg, power_lookup by done.
    change (replay (take 0 _) ?d) with d. by rewrite Hd0. }
  destruct (C27_open_rejects_bad_files g Hu) as (f' & e & Hop & Hf').
  { intros E0. rewrite E0 in Hge. cbn in Hge. lia. }
  { left. intros E0. pose proof (Hz 0%nat ltac:(lia)) as H0. rewrite <- (lookup_take _ 8) in H0 by lia. by rewrite E0 in H0. }
  rewrite (open_unlocked csz g Hu (Hz 9%nat ltac:(lia))), Hop. eexists _, e. split; [done|]. by rewrite fclose_data.
Qed.
Print Assumptions C94_created_refuted.

Definition in_order : shuffle (Z * list item_delta) := Shuffle _ (fun l => l) (fun l => reflexivity l).

(** A file with one operation to which one is added, with blocks of 32 bytes: as the
    power failed neither the old operation was lost nor the new one found, but one with
    all numbers 0; after Close, the file that announces two operations has one. *)
Example C94_case :
  let ops := [(43, 1, 2)] in
  let f0 := open_file KOs (delta_image 0 (map op_bytes ops)) in
  let cs := [DAdd 43 5 6; DFlush in_order] in
  exists s s', worked 4096 f0 ops cs s /\ length (f_data (ds_file s)) = (14 + 18 * (length ops + 1))%nat /\
    d_close 4096 in_order s = (s', Ret tt) /\
    (let log := written_by f0 (ds_file s) in
     match d_open_maybe_recover 512 (open_file KOs
       (power_image 32 (fun b => if (b =? 0)%nat then 1%nat else 0%nat) (length log) (f_data f0) log)) with
     | (_, Ret t) => d_get t 1 2 = Some 43 /\ d_get t 5 6 = None /\ d_get t 0 0 = Some 0
     | _ => False
     end) /\
    let log := written_by f0 (ds_file s') in
    match d_open_maybe_recover 512 (open_file KOs
      (power_image 32 (fun b => if (b =? 0)%nat then length log else 0%nat) 0 (f_data f0) log)) with
    | (_, Err _) => True
    | _ => False
    end.
Proof.
  cbn zeta.
  destruct (d_open (open_file KOs (delta_image 0 (map op_bytes [(43, 1, 2)])))) as [f1 o1] eqn:E1.
  assert (H1 : exists s0, o1 = Ret s0) by (vm_compute in E1; injection E1 as _ <-; eauto). destruct H1 as [s0 ->].
  destruct (d_calls 4096 [DAdd 43 5 6; DFlush in_order] s0) as [s o2] eqn:E2.
  destruct (d_close 4096 in_order s) as [s' o3] eqn:E3.
  assert (H2 : o2 = Ret tt).
  { vm_compute in E1. injection E1 as <- <-. vm_compute in E2. by injection E2 as _ <-. }
  subst o2. exists s, s'. split.
  { split; [by repeat split; left|]. split; [by repeat constructor|]. split; [done|]. split; [by repeat constructor|].
    by exists f1, s0. }
  vm_compute in E1. injection E1 as <- <-. vm_compute in E2. injection E2 as <-. vm_compute in E3. injection E3 as <- <-.
  split; [by vm_compute|]. split; [done|]. split; vm_compute; done.
Qed.

(** The created file of [C94_created_refuted]: one operation added and flushed, then power is lost. *)
Example C94_created_case :
  let f0 := open_file KOs [] in
  match d_open f0 with
  | (_, Ret s0) =>
    match d_calls 4096 [DAdd 43 5 6; DFlush in_order] s0 with
    | (s, Ret tt) =>
      let log := written_by f0 (ds_file s) in
      let g := open_file KOs (power_image 32 (fun _ => 0%nat) (length log) [] log) in
      usable f0 /\ d_get s 5 6 = Some 43 /\ length (f_data g) = 32%nat /\
      match d_open_maybe_recover 512 g with (_, Err _) => True | _ => False end
    | _ => False
    end
  | _ => False
  end.
Proof. split; [by repeat split; left|]. vm_compute. done. Qed.
