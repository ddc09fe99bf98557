(** The delta storage on a file it did not write: any version byte, any checksums, any
    bytes behind the announced records.  The storage is compared with one on the file
    that has the announced records only. *)
From Verif Require Import Base GoIO Lock Delta SpecFile SpecLock SpecDelta GoIOFacts FileBufferFacts
  CodecFacts LockFacts DeltaFacts DeltaRecoverFacts DeltaStoreFacts DeltaSession DeltaHistFacts.

Definition decode (r : list byte) : entry := ent_of (dec_entry r).

Lemma decode_typed r : length r = 18%nat -> Forall is_byte r -> ent_typed (decode r).
Proof.
  intros Hl Hb. destruct (split_record r Hl) as (op & u & i & s & -> & Hu & Hi).
  unfold decode. rewrite dec_entry_split by done. unfold ent_typed, ent_of. cbn [fst snd id_op id_item de_op de_user de_item].
  apply Forall_app in Hb as [Ho Hb]. apply Forall_app in Hb as [Bu Hb]. apply Forall_app in Hb as [Bi _].
  apply Forall_cons in Ho as [Ho _]. split; [exact Ho|]. split; by apply be_dec_u64.
Qed.

(** [X]: what is behind the header when the file is opened; [E]: its announced records;
    [N]: the records written since. *)
Record foreign (X : list byte) (E : list entry) (h : list devent) (N : list entry) (s t : dstore) : Prop := {
  fo_inv : dinv h (E ++ N) t;
  fo_cache : ds_cache s = ds_cache t;
  fo_new : ds_new s = ds_new t;
  fo_total : ds_total s = ds_total t;
  fo_ok : healthy (ds_file s);
  fo_pos : (f_pos (ds_file s) <= length (f_data (ds_file s)))%nat;
  fo_data : exists v c, length c = 4%nat /\ f_data (ds_file s) = delta_magic ++ v :: 1 :: c ++ X ++ recs N
}.

Lemma foreign_long X E h N s t : foreign X E h N s t -> (14 <= length (f_data (ds_file s)))%nat.
Proof.
  intros F. destruct (fo_data _ _ _ _ _ _ F) as (v & c & Hc & ->).
  rewrite app_length. cbn [length]. rewrite !app_length. change (length delta_magic) with 8%nat. lia.
Qed.

Lemma foreign_add X E h N s t op u i : foreign X E h N s t -> is_byte op -> is_u64 u -> is_u64 i ->
  foreign X E (h ++ [EvAdd op u i]) N (d_add op u i s) (d_add op u i t).
Proof.
  intros F Ho Hu Hi. pose proof (add_inv op u i _ _ _ (fo_inv _ _ _ _ _ _ F) Ho Hu Hi) as I.
  destruct F as [_ Hc Hn Ht Hk Hp Hd]. unfold d_add in *. rewrite Hn, Hc, Ht.
  destruct (replace_delta i op _); split; try done.
Qed.

Lemma splice_head v c m x : length c = 4%nat -> length x = 6%nat ->
  splice 8 x (delta_magic ++ v :: 1 :: c ++ m) = delta_magic ++ x ++ m.
Proof.
  intros Hc Hx. rewrite splice_header by done. do 2 f_equal.
  destruct c as [|a [|b [|e [|g [|]]]]]; done.
Qed.

Lemma foreign_flush bsz sh X E h N s t : foreign X E h N s t ->
  exists s' t', d_flush bsz sh s = (s', Ret tt) /\
    foreign X E (h ++ [EvFlush]) (N ++ visit sh (ds_new s)) s' t' /\ ds_new t' = ∅ /\
    f_data (ds_file s') = delta_magic ++ 1 :: 1 :: be_enc 4 (ds_total t') ++ X ++ recs (N ++ visit sh (ds_new s)).
Proof.
  intros F. pose proof (foreign_long _ _ _ _ _ _ F) as Hlong.
  pose proof (fo_inv _ _ _ _ _ _ F) as I.
  pose proof (visit_typed _ _ _ sh I) as Hty.
  destruct (flush_inv_any bsz sh _ _ _ I) as (t' & Ht' & I' & _ & Hn').
  assert (Htot : ds_total t' = ds_total t /\ ds_cache t' = addto (ds_cache t) (visit sh (ds_new t))).
  { rewrite d_flush_ok in Ht'; [|apply I|eapply inv_seek; [done|lia]|done]. injection Ht' as <-. done. }
  destruct Htot as [Htot Hca].
  destruct (fo_data _ _ _ _ _ _ F) as (v & c & Hc & Hd).
  assert (HD : f_data (flushed_file (ds_total s) (visit sh (ds_new s)) (ds_file s)) =
    delta_magic ++ 1 :: 1 :: be_enc 4 (ds_total t') ++ X ++ recs (N ++ visit sh (ds_new s))).
  { unfold flushed_file. rewrite fput_data by (cbn; lia). cbn [fset_pos f_pos f_data]. rewrite splice_end.
    unfold hdr_file. rewrite fput_data by (cbn [fset_pos f_pos f_data]; lia). cbn [fset_pos f_pos f_data].
    rewrite Hd, splice_head by done. rewrite Htot, <- (fo_total _ _ _ _ _ _ F), recs_app.
    change (u32 (ds_total s)) with (ds_total s mod 256 ^ Z.of_nat 4). rewrite be_enc_mod. by rewrite <- !app_assoc. }
  rewrite d_flush_ok; [|apply F|right; lia|by rewrite (fo_new _ _ _ _ _ _ F)].
  eexists _, t'. split; [done|]. split; [|split; [done|exact HD]].
  split; cbn [ds_cache ds_new ds_total ds_file].
  - rewrite (fo_new _ _ _ _ _ _ F), app_assoc. done.
  - rewrite Hca, (fo_cache _ _ _ _ _ _ F), (fo_new _ _ _ _ _ _ F). done.
  - done.
  - rewrite Htot. apply F.
  - apply flushed_file_healthy, F.
  - unfold flushed_file at 1. rewrite fput_pos. cbn [fset_pos f_pos].
    unfold flushed_file. rewrite fput_data by (cbn; lia). cbn [fset_pos f_pos f_data].
    rewrite splice_end, app_length. lia.
  - exists 1, (be_enc 4 (ds_total t')). split; [apply be_enc_length|exact HD].
Qed.

Lemma foreign_calls bsz X E cs : forall h N s t, foreign X E h N s t -> Forall ev_typed (map event_of cs) ->
  exists s' t' N', d_calls bsz cs s = (s', Ret tt) /\ foreign X E (h ++ map event_of cs) N' s' t'.
Proof.
  induction cs as [|c cs IH]; intros h N s t F Ht; cbn [map d_calls] in *.
  - exists s, t, N. by rewrite app_nil_r.
  - apply Forall_cons in Ht as [Hc Ht].
    assert (exists s1 t1 N1, d_call bsz c s = (s1, Ret tt) /\ foreign X E (h ++ [event_of c]) N1 s1 t1)
      as (s1 & t1 & N1 & H1 & F1).
    { destruct c as [op u i|sh]; cbn [d_call event_of] in *.
      - destruct Hc as (? & ? & ?). eexists _, _, N. split; [done|]. by apply foreign_add.
      - destruct (foreign_flush bsz sh _ _ _ _ _ _ F) as (s1 & t1 & H1 & F1 & _). eauto. }
    destruct (IH _ _ _ _ F1 Ht) as (s2 & t2 & N2 & H2 & F2). exists s2, t2, N2. unfold iobind. rewrite H1.
    split; [done|]. by rewrite <- app_assoc in F2.
Qed.

Lemma foreign_close_new bsz sh X E h N s t : foreign X E h N s t ->
  exists s', let N' := N ++ visit sh (ds_new s) in d_close bsz sh s = (s', Ret tt) /\ f_closed (ds_file s') = true /\
    f_data (ds_file s') = delta_magic ++ 1 :: 0 :: be_enc 4 (Z.of_nat (length E + length N')) ++ X ++ recs N' /\
    Forall ent_typed (E ++ N') /\ Z.of_nat (length E + length N') <= Z.of_nat (length h) /\
    forall u i, latest (E ++ N') u i = last_add h u i.
Proof.
  intros F. destruct (foreign_flush bsz sh _ _ _ _ _ _ F) as (s1 & t1 & H1 & F1 & Hn & Hd).
  pose proof (foreign_long _ _ _ _ _ _ F1) as Hlong. pose proof (fo_inv _ _ _ _ _ _ F1) as I1.
  cbv zeta. set (N' := N ++ visit sh (ds_new s)) in *.
  assert (Htot : ds_total t1 = Z.of_nat (length E + length N')).
  { rewrite (di_total _ _ _ I1), Hn. change (length (pend ∅)) with 0%nat. rewrite app_length. lia. }
  unfold d_close, iobind, iomaperr. rewrite H1.
  unfold on_dfile at 1. unfold d_write_locked. change delta_locked_offset with (Z.of_nat 9).
  rewrite write_locked_ok; [|apply F1|right; apply F1|right; lia].
  unfold on_dfile. cbn [ds_file]. set (f2 := File _ _ _ _ _ _).
  assert (Hcl : fclose f2 = (File (f_kind f2) (f_data f2) (f_pos f2) true (f_env f2) (f_log f2), Ret tt)).
  { by apply fclose_healthy. }
  rewrite Hcl. eexists. split; [done|]. subst f2. cbn [ds_file f_data f_closed].
  split; [done|]. split; [rewrite Hd, Htot; done|]. split; [apply I1|]. split.
  - rewrite <- Htot, <- (fo_total _ _ _ _ _ _ F1).
    assert (ds_total s1 = ds_total s) as ->.
    { rewrite d_flush_ok in H1; [by injection H1 as <-|apply F|right; eapply foreign_long in F; lia|].
      rewrite (fo_new _ _ _ _ _ _ F). eapply visit_typed, F. }
    rewrite (fo_total _ _ _ _ _ _ F). apply (di_bound _ _ _ (fo_inv _ _ _ _ _ _ F)).
  - intros u i. rewrite (di_dur _ _ _ I1), durable_flush, last_add_app. done.
Qed.

Lemma foreign_close bsz sh X E h N s t : foreign X E h N s t ->
  exists s' N', d_close bsz sh s = (s', Ret tt) /\ f_closed (ds_file s') = true /\
    f_data (ds_file s') = delta_magic ++ 1 :: 0 :: be_enc 4 (Z.of_nat (length E + length N')) ++ X ++ recs N' /\
    Forall ent_typed (E ++ N') /\ Z.of_nat (length E + length N') <= Z.of_nat (length h) /\
    forall u i, latest (E ++ N') u i = last_add h u i.
Proof. intros F. destruct (foreign_close_new bsz sh _ _ _ _ _ _ F) as (s' & H). by exists s', (N ++ visit sh (ds_new s)). Qed.

(** What Open makes of the beginning of a file. *)
Lemma open_beginning f v rs tail : usable f ->
  f_data f = delta_magic ++ v :: 0 :: be_enc 4 (Z.of_nat (length rs)) ++ concat rs ++ tail ->
  Z.of_nat (length rs) < 2 ^ 32 -> Forall (fun r => length r = 18%nat) rs ->
  exists f' p, (p <= length (f_data f))%nat /\ f_closed f' = false /\ f_env f' = [] /\ f_pos f' = p /\
    f_data f' = delta_magic ++ v :: 1 :: be_enc 4 (Z.of_nat (length rs)) ++ concat rs ++ tail /\
    d_open f = (f', Ret (DStore (group (map decode rs)) ∅ (Z.of_nat (length rs)) 0 f')).
Proof.
  intros (Hc & He & Hp) Hd Hl Hr.
  destruct (d_open_nonempty f (conj Hc He)) as (p & Hpl & Ho); [by rewrite Hd|].
  rewrite Hd, d_load_ok in Ho; [|apply be_enc_length|rewrite be_dec_enc; [done|rewrite pow256_4; lia]|done].
  cbn [snd] in Ho. eexists _, p. split; [done|]. split; [|split; [|split; [|split; [|exact Ho]]]]; try done.
Qed.

Lemma foreign_open f v rs tail : usable f ->
  f_data f = delta_magic ++ v :: 0 :: be_enc 4 (Z.of_nat (length rs)) ++ concat rs ++ tail ->
  Z.of_nat (length rs) < 2 ^ 32 -> Forall (fun r => length r = 18%nat) rs -> Forall (Forall is_byte) rs ->
  exists f' s t ops, d_open f = (f', Ret s) /\ foreign (concat rs ++ tail) (map decode rs) (map op_event ops ++ [EvFlush]) [] s t /\
    length ops = length rs /\ forall u i, d_get s u i = last_add (map op_event ops) u i.
Proof.
  intros Hu Hd Hl Hr Hb. destruct (open_beginning f v rs tail Hu Hd Hl Hr) as (f' & p & Hp & Hc & He & Hpos & Hd' & Ho).
  set (E := map decode rs) in *. set (ops := map (fun x : entry => (id_op (snd x), fst x, id_item (snd x))) E).
  assert (HE : map op_ent ops = E).
  { unfold ops. rewrite map_map. rewrite <- (map_id E) at 2. apply map_ext. by intros [u [i o]]. }
  assert (Ht : Forall ent_typed E).
  { apply Forall_map. apply Forall_forall. intros r Hin. rewrite Forall_forall in Hr, Hb. apply decode_typed; auto. }
  exists f', (DStore (group E) ∅ (Z.of_nat (length rs)) 0 f'),
    (DStore (group E) ∅ (Z.of_nat (length rs)) 0 (File KOs (img 1 E) 0 false [] [])), ops.
  assert (Hlen : length ops = length rs) by (unfold ops, E; by rewrite !map_length).
  split; [exact Ho|]. split; [|split; [done|]].
  - split; cbn [ds_cache ds_new ds_total ds_file]; try done.
    + rewrite app_nil_r. apply opened_inv; cbn [ds_cache ds_new ds_total ds_file f_data f_pos]; try done.
      * by left.
      * unfold E. by rewrite map_length.
      * rewrite app_length, map_length, Hlen. unfold E. rewrite map_length. lia.
      * apply unflushed_flush.
      * intros u i. rewrite ops_durable, last_add_app. cbn [last_add]. rewrite <- HE. apply latest_ops.
      * intros u. rewrite ops_durable, mentioned_app. unfold mentioned at 2. cbn [existsb mentions].
        rewrite orb_false_r, <- HE. apply users_ops.
      * intros x Hx. apply elem_of_app. left. rewrite <- HE in Hx. apply elem_of_list_fmap in Hx as ([[op u] i] & -> & Hx).
        apply elem_of_list_fmap. by exists (op, u, i).
    + rewrite Hpos, Hd'. rewrite Hd in Hp. revert Hp. rewrite !app_length. cbn [length]. lia.
    + eexists v, _. rewrite app_nil_r. split; [|exact Hd']. apply be_enc_length.
  - intros u i. unfold d_get. cbn [ds_new ds_cache]. rewrite lookup_empty, group_lookup, <- latest_ops, HE. unfold latest, flast.
    by destruct (of_user u E).
Qed.
