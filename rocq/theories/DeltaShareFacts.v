(** Facts about storages sharing a delta file. *)
From Verif Require Import Base GoIO Lock Delta SpecFile SpecLock SpecCrash SpecDelta DeltaSession DeltaShare
  GoIOFacts CodecFacts LockFacts DeltaFacts DeltaRecoverFacts DeltaStoreFacts DeltaHistFacts DeltaCrashFacts.

Lemma sees_self s : sees (f_data (ds_file s)) s = s.
Proof. by destruct s as [c n t u [k d p cl e l]]. Qed.

Lemma inv_idle h E s : dinv h E s -> unflushed h = [] -> ds_new s = ∅.
Proof.
  intros I Hu. apply map_empty. intros u. pose proof (di_nusers _ _ _ I u) as H. rewrite Hu in H.
  destruct (ds_new s !! u); [|done]. destruct H as [H _]. discriminate H. eauto.
Qed.

(** ** Open refuses a file that is open *)

Lemma locked_refused h E s f : dinv h E s -> usable f -> f_data f = f_data (ds_file s) ->
  exists f' e, d_open f = (f', Err e) /\ f_data f' = f_data f.
Proof.
  intros I (Hc & He & _) Hd. rewrite (di_data _ _ _ I), img_enc in Hd.
  destruct (d_open_nonempty f (conj Hc He)) as (p & _ & Ho); [by rewrite Hd|].
  destruct (d_load_bad (f_data f)) as (l' & e & Hload).
  { right. right. left. exists 1. rewrite Hd. done. }
  rewrite Hload in Ho. cbn [snd] in Ho. eexists _, e. split; [exact Ho|]. done.
Qed.

Definition alone (bsz n : nat) (d : list byte) (hs : list dstore) : Prop :=
  (hs = [] /\ ((d = []) \/
    exists E, d = img 0 E /\ Forall ent_typed E /\ (S (length E) <= n)%nat)) \/
  exists h E s, hs = [s] /\ dinv h E s /\ d = f_data (ds_file s) /\ (length h <= n)%nat.

Lemma sharing_alone bsz n d hs : sharing bsz n d hs -> Z.of_nat n < 2 ^ 32 -> alone bsz n d hs.
Proof.
  induction 1 as [|ops Ht|n d hs f f' s _ IH Hu Hd Ho|n d hs i s c s' _ IH Hi Ht Hc|n d hs i s sh s' _ IH Hi Hc];
    intros Hn.
  - left. by split; [|left].
  - left. split; [done|]. right. exists (map op_ent ops). unfold img. rewrite <- op_ent_rec.
    split; [done|]. split; [by apply op_ent_typed|]. rewrite map_length. lia.
  - destruct (IH Hn) as [(-> & [-> | (E & -> & HE & Hl)]) | (h & E & s0 & -> & I & -> & Hl)].
    + destruct Hu as (Hc & He & Hp). destruct (d_open_empty f (conj Hc He) Hd) as (log & Ho').
      cbn zeta in Ho'. rewrite Ho in Ho'. injection Ho' as -> ->.
      right. exists [], [], (DStore ∅ ∅ 0 0 (File (f_kind f) (img 1 []) 14 false [] log)).
      split; [done|]. split; [|split; [done|cbn; lia]].
      apply opened_inv; try done; [right; cbn; lia|]. intros x Hx. inversion Hx.
    + right. set (ops := map ent_op E).
      assert (Hd' : f_data f = delta_image 0 (map op_bytes ops)) by (unfold ops; by rewrite ent_op_bytes).
      destruct (image_inv f f' s ops Hu) as [I Hf]; try done.
      { by apply ent_op_typed. } { unfold ops. rewrite map_length. lia. }
      eexists _, _, s. split; [done|]. split; [exact I|]. split; [by rewrite Hf|].
      unfold ops. rewrite app_length, !map_length. cbn. lia.
    + exfalso. destruct (locked_refused h E s0 f I Hu Hd) as (f1 & e & Ho' & _). by rewrite Ho in Ho'.
  - destruct IH as [(-> & _) | (h & E & s0 & -> & I & -> & Hl)]; [lia|done|].
    destruct i as [|i]; [|done]. injection Hi as <-. rewrite sees_self in Hc.
    destruct (call_inv bsz c h E s0 I) as (s1 & E1 & H1 & I1); [lia|done|].
    rewrite Hc in H1. injection H1 as <-.
    right. exists (h ++ [event_of c]), E1, s'. split; [done|]. split; [done|]. split; [done|].
    rewrite app_length. cbn. lia.
  - destruct IH as [(-> & _) | (h & E & s0 & -> & I & -> & Hl)]; [lia|done|].
    destruct i as [|i]; [|done]. injection Hi as <-. rewrite sees_self in Hc.
    destruct (close_inv bsz sh h E s0 I) as (s1 & H1 & Hd1 & _); [lia|].
    rewrite Hc in H1. injection H1 as <-.
    destruct (flush_inv bsz sh h E s0 I) as (s2 & _ & I2 & _); [lia|].
    left. split; [done|]. right. exists (E ++ visit sh (ds_new s0)). split; [done|]. split; [apply I2|].
    rewrite app_length, visit_length. pose proof (di_total _ _ _ I). pose proof (di_bound _ _ _ I). lia.
Qed.

(** ** OpenMaybeRecover takes it *)

Lemma visit_one sh u d : visit sh (<[u := [d]]> ∅) = [(u, d)].
Proof.
  pose proof (visit_perm sh (<[u := [d]]> ∅)) as H. rewrite (pend_insert ∅ u [d]) in H.
  rewrite delete_empty in H. cbn in H. by apply Permutation_singleton_r in H.
Qed.

Lemma add_idle op u i s : ds_new s = ∅ ->
  d_add op u i s = DStore (ds_cache s) (<[u := [ItemDelta i op]]> ∅) (ds_total s + 1) (ds_unflushed s + 1) (ds_file s).
Proof. intros H. unfold d_add. rewrite H, lookup_empty. cbn. done. Qed.

Lemma stolen csz h E s g : dinv h E s -> Z.of_nat (length h) < 2 ^ 32 -> (0 < csz)%nat ->
  usable g -> f_pos g = 0%nat -> f_data g = f_data (ds_file s) ->
  exists f' t h', d_open_maybe_recover csz g = (f', Ret t) /\ dinv h' E t /\ unflushed h' = [] /\
    ds_file t = f' /\ length h' = S (length E).
Proof.
  intros I Hl Hcsz Hu Hp Hd.
  destruct (torn_open csz g E [] (be_enc 4 (Z.of_nat (length E))) 0) as (k & f1 & f' & t & Hk & _ & Hu1 & Hd1 & Ho & Hr);
    try done.
  { apply be_enc_bytes. }
  { rewrite Hd, (di_data _ _ _ I), img_enc. by rewrite app_nil_r. }
  { apply I. }
  { pose proof (di_total _ _ _ I). pose proof (di_bound _ _ _ I). cbn [length]. lia. }
  rewrite take_nil, app_nil_r in Hd1.
  assert (Hd' : f_data f1 = delta_image 0 (map op_bytes (map ent_op E))) by (by rewrite ent_op_bytes).
  assert (Hlen : Z.of_nat (length (map ent_op E)) < 2 ^ 32).
  { pose proof (di_total _ _ _ I). pose proof (di_bound _ _ _ I). rewrite map_length. lia. }
  assert (Hty : Forall op_typed (map ent_op E)) by (apply ent_op_typed, I).
  destruct (image_inv f1 f' t _ Hu1 Hty Hd' Hlen Ho) as [It Hft]. rewrite ent_op_ent in It.
  eexists f', t, _. split; [done|]. split; [exact It|]. split; [apply unflushed_flush|]. split; [done|].
  rewrite app_length, !map_length. cbn. lia.
Qed.

(** Two storages with the same records: what the first flushes stays, what the second
    flushes and closes upon is cut off by its count. *)
Lemma second_is_lost bsz h E s h' t sh sh' opa ua ia opb ub ib g :
  dinv h E s -> dinv h' E t -> unflushed h = [] -> unflushed h' = [] ->
  Z.of_nat (length h) + 1 < 2 ^ 32 -> Z.of_nat (length E) + 2 < 2 ^ 32 ->
  is_byte opa -> is_u64 ua -> is_u64 ia -> is_byte opb -> is_u64 ub -> is_u64 ib ->
  exists s1 t1,
    d_flush bsz sh (d_add opa ua ia (sees (f_data (ds_file t)) s)) = (s1, Ret tt) /\
    d_close bsz sh' (d_add opb ub ib (sees (f_data (ds_file s1)) t)) = (t1, Ret tt) /\
    (usable g -> f_data g = f_data (ds_file t1) -> exists g' r, d_open g = (g', Ret r) /\
      forall u i, d_get r u i = last_add (h ++ [EvAdd opa ua ia]) u i).
Proof.
  intros I I' Hu Hu' Hl HE Hopa Hua Hia Hopb Hub Hib.
  assert (Hsame : f_data (ds_file t) = f_data (ds_file s)).
  { by rewrite (di_data _ _ _ I), (di_data _ _ _ I'). }
  rewrite Hsame, sees_self. set (xa := (ua, ItemDelta ia opa)). set (xb := (ub, ItemDelta ib opb)).
  pose proof (add_inv opa ua ia h E s I Hopa Hua Hia) as Ia.
  destruct (flush_inv bsz sh _ E _ Ia) as (s1 & Hs1 & Is1 & _ & _).
  { rewrite app_length. cbn. lia. }
  rewrite (add_idle opa ua ia s) in Is1 by (by eapply inv_idle). cbn [ds_new] in Is1. rewrite visit_one in Is1.
  fold xa in Is1. exists s1.
  set (t0 := sees (f_data (ds_file s1)) t).
  assert (Hn0 : ds_new t0 = ∅) by (apply (inv_idle h' E t I' Hu')).
  assert (Hh0 : healthy (ds_file t0)) by apply (di_ok _ _ _ I').
  assert (Hd0 : f_data (ds_file t0) = img 1 (E ++ [xa])) by apply (di_data _ _ _ Is1).
  assert (Hp0 : can_seek (ds_file t0) (f_pos (ds_file t0))).
  { destruct (di_pos _ _ _ I') as [Hk | Hk]; [by left|right]. rewrite Hd0, img_length, app_length.
    rewrite (di_data _ _ _ I'), img_length in Hk. cbn in *. lia. }
  assert (Htot : ds_total t0 = Z.of_nat (length E)).
  { cbn. rewrite (di_total _ _ _ I'), (inv_idle h' E t I' Hu'). change (length (pend ∅)) with 0%nat. lia. }
  set (F2 := flushed_file (ds_total t0 + 1) [xb] (ds_file t0)).
  assert (Hd2 : f_data F2 = delta_magic ++ [1; 1] ++ be_enc 4 (Z.of_nat (length (E ++ [xa]))) ++ recs (E ++ [xa]) ++ recs [xb]).
  { unfold F2, flushed_file. rewrite fput_data by (cbn; lia). cbn [fset_pos f_pos f_data].
    rewrite splice_end, (hdr_file_data _ (E ++ [xa]) _ Hd0), Htot. rewrite u32_id by (unfold is_u32; lia).
    rewrite <- !app_assoc. repeat f_equal. rewrite app_length. cbn. lia. }
  set (t2 := DStore (addto (ds_cache t0) [xb]) ∅ (ds_total t0 + 1) 0 F2).
  assert (Hfl : d_flush bsz sh' (d_add opb ub ib t0) = (t2, Ret tt)).
  { rewrite add_idle by done. rewrite d_flush_ok; cbn [ds_file ds_new ds_cache ds_total].
    - rewrite visit_one. done.
    - done.
    - right. rewrite Hd0, img_length. lia.
    - rewrite visit_one. apply Forall_singleton. done. }
  assert (HhF : healthy F2) by (by apply flushed_file_healthy).
  set (d3 := delta_magic ++ 1 :: 0 :: be_enc 4 (Z.of_nat (length (E ++ [xa]))) ++ recs (E ++ [xa]) ++ recs [xb]).
  assert (Hcl : exists t1, d_close bsz sh' (d_add opb ub ib t0) = (t1, Ret tt) /\ f_data (ds_file t1) = d3).
  { unfold d_close, iobind, iomaperr. rewrite Hfl.
    unfold on_dfile at 1. unfold d_write_locked. change delta_locked_offset with (Z.of_nat 9). cbn [ds_file t2].
    assert (H9 : forall p, (p <= 14)%nat -> can_seek F2 p).
    { intros p Hpp. right. rewrite Hd2, !app_length, be_enc_length. cbn. lia. }
    assert (HpF : can_seek F2 (f_pos F2)).
    { right. unfold F2 at 1, flushed_file at 1. rewrite fput_pos. cbn [fset_pos f_pos].
      unfold F2, flushed_file. rewrite fput_data by (cbn; lia). cbn [fset_pos f_pos f_data].
      rewrite splice_end, app_length. lia. }
    rewrite write_locked_ok; [|done|done|apply H9; lia].
    unfold on_dfile. cbn [ds_file].
    set (f2 := File _ _ _ _ _ _).
    assert (Hc2 : fclose f2 = (File (f_kind f2) (f_data f2) (f_pos f2) true (f_env f2) (f_log f2), Ret tt)).
    { by apply fclose_healthy. }
    rewrite Hc2. eexists. split; [done|]. cbn [ds_file f_data f2]. by rewrite Hd2. }
  destruct Hcl as (t1 & Ht1 & Hd1). exists t1. split; [exact Hs1|]. split; [exact Ht1|].
  intros (Hgc & Hge & _) Hg. rewrite Hd1 in Hg.
  destruct (d_open_nonempty g (conj Hgc Hge)) as (p & _ & Ho); [by rewrite Hg|].
  rewrite Hg in Ho. unfold d3, recs in Ho.
  rewrite (d_load_ok 1 (be_enc 4 (Z.of_nat (length (E ++ [xa])))) (map rec_of (E ++ [xa]))) in Ho; cycle 1.
  { by rewrite be_enc_length. }
  { rewrite map_length. apply be_dec_enc. rewrite pow256_4, app_length. cbn. lia. }
  { apply recs_len. }
  cbn [snd] in Ho. eexists _, _. split; [exact Ho|]. intros u i.
  unfold d_get. cbn [ds_new ds_cache]. rewrite lookup_empty.
  assert (Hty : Forall ent_typed (E ++ [xa])) by apply (di_typed _ _ _ Is1).
  rewrite map_dec_rec by done. rewrite group_lookup.
  pose proof (di_dur _ _ _ Is1 u i) as Hdur. rewrite durable_flush, last_add_app in Hdur. cbn [last_add] in Hdur.
  rewrite <- Hdur. unfold latest. by destruct (of_user u (E ++ [xa])).
Qed.
