(** Proofs about Flush and Close of the delta storage on a file whose calls may fail. *)
From Verif Require Import Base GoIO Lock Delta SpecFile SpecLock SpecCrash SpecDelta DeltaSession GoIOFacts
  CodecFacts LockFacts DeltaFacts DeltaRecoverFacts DeltaStoreFacts DeltaHistFacts DeltaCrashFacts
  FaultyFacts IndexFaultFacts.

Lemma faulty_dheader bsz h : faulty (d_write_header (bw_write fwrite bsz) h) (enc_header h).
Proof.
  unfold d_write_header, enc_header. eapply faulty_bind; [apply faulty_write_uint|].
  eapply faulty_bind; [apply faulty_write_uint|]. apply faulty_write_uint.
Qed.

Lemma faulty_dentry bsz e : faulty (d_write_entry (bw_write fwrite bsz) e) (enc_entry e).
Proof.
  unfold d_write_entry, enc_entry. eapply faulty_bind; [apply faulty_write_uint|].
  eapply faulty_bind; [apply faulty_write_uint|]. eapply faulty_bind; [apply faulty_write_uint|]. apply faulty_write_uint.
Qed.

(** The loop of flushEntries without what it does to the memory. *)
Fixpoint bytes_loop (bsz : nat) (l : list entry) : io (bwriter file) unit :=
  match l with
  | [] => ioret tt
  | (u, d) :: l =>
    run iomaperr (fun _ => EMsg "failed to write entry")
      (d_write_entry (bw_write fwrite bsz) (DEntry (id_op d) u (id_item d) 0));
    bytes_loop bsz l
  end.

Lemma flush_loop_bytes bsz F : forall b c,
  let '((b1, c1), o) := flush_loop bsz F (b, c) in
  bytes_loop bsz F b = (b1, o) /\ (o = Ret tt -> c1 = addto c F).
Proof.
  induction F as [|[u d] F IH]; intros b c; [done|].
  cbn [flush_loop bytes_loop]. unfold iobind, on_fst.
  destruct (iomaperr _ _ b) as [b1 [[]|e| |]]; try done. apply IH.
Qed.

Lemma faulty_bytes_loop bsz F : Forall ent_typed F -> faulty (bytes_loop bsz F) (recs F).
Proof.
  induction 1 as [|[u d] F Hx _ IH]; [apply faulty_ret|]. cbn [bytes_loop]. unfold recs. cbn [map concat].
  eapply faulty_bind; [|exact IH]. apply faulty_maperr. rewrite <- (rec_of_enc (u, d) Hx). apply faulty_dentry.
Qed.

Definition quiet_store (s : dstore) : dstore :=
  DStore (ds_cache s) (ds_new s) (ds_total s) (ds_unflushed s) (quiet (ds_file s)).

Lemma flush_header_faulty bsz s : f_closed (ds_file s) = false -> can_seek (ds_file s) 8 ->
  exists s', f_closed (ds_file s') = false /\ ((flush_header bsz s = (s', Ret tt) /\
      quiet_store s' = DStore (ds_cache s) (ds_new s) (ds_total s) (ds_unflushed s) (hdr_file (ds_total s) (quiet (ds_file s)))) \/
    (exists e j, flush_header bsz s = (s', Err e) /\
      quiet (ds_file s') = fput (take j ([1; 1] ++ be_enc 4 (u32 (ds_total s)))) (fset_pos 8 (quiet (ds_file s))))).
Proof.
  intros Hc Hs.
  assert (Eq : flush_header bsz s = on_dfile (fun _ => with_bufio (
      run iomaperr (fun _ => EMsg "failed to write header")
        (d_write_header (bw_write fwrite bsz) (DHeader delta_version 1 (u32 (ds_total s))));
      iomaperr (fun _ => EMsg "failed to flush buffer") (bw_flush fwrite)) (fset_pos 8 (ds_file s))) s).
  { unfold flush_header, on_dfile, iobind at 1, ignore. change delta_prefix_len with (Z.of_nat 8).
    by rewrite (seek_can _ 8 Hc Hs). }
  rewrite Eq. clear Eq. unfold on_dfile.
  destruct (buffered_faulty _ _ (fun _ => EMsg "failed to flush buffer") (fset_pos 8 (ds_file s))
    (faulty_maperr (fun _ => EMsg "failed to write header") _ _ (faulty_dheader bsz (DHeader delta_version 1 (u32 (ds_total s))))) Hc)
    as (f' & [(-> & Hc' & Hq) | (e & j & -> & Hc' & Hq)]).
  - exists (DStore (ds_cache s) (ds_new s) (ds_total s) (ds_unflushed s) f'). split; [exact Hc'|].
    left. split; [done|]. unfold quiet_store. cbn [ds_cache ds_new ds_total ds_unflushed ds_file]. by rewrite Hq.
  - exists (DStore (ds_cache s) (ds_new s) (ds_total s) (ds_unflushed s) f'). split; [exact Hc'|]. right. exists e, j. split; [done|]. cbn [ds_file]. by rewrite Hq.
Qed.

Lemma flush_entries_faulty bsz sh s : f_closed (ds_file s) = false -> Forall ent_typed (visit sh (ds_new s)) ->
  let F := visit sh (ds_new s) in
  let f := fset_pos (length (f_data (ds_file s))) (quiet (ds_file s)) in
  exists s', f_closed (ds_file s') = false /\ ((flush_entries bsz sh s = (s', Ret tt) /\
      quiet_store s' = DStore (addto (ds_cache s) F) ∅ (ds_total s) 0 (fput (recs F) f)) \/
    (exists e j, flush_entries bsz sh s = (s', Err e) /\ quiet (ds_file s') = fput (take j (recs F)) f)).
Proof.
  intros Hc Ht F f.
  assert (Hseek : fseek 0 SeekEnd (ds_file s) =
    (fset_pos (length (f_data (ds_file s))) (ds_file s), Ret (Z.of_nat (length (f_data (ds_file s)))))).
  { unfold fseek. rewrite Hc, Z.add_0_r, Nat2Z.id.
    assert (H0 : (Z.of_nat (length (f_data (ds_file s))) <? 0) = false) by (apply Z.ltb_ge; lia). rewrite H0.
    rewrite Z.ltb_irrefl. by destruct (f_kind (ds_file s)). }
  destruct (buffered_faulty _ _ (fun _ => EMsg "failed to flush buffer") (fset_pos (length (f_data (ds_file s))) (ds_file s))
    (faulty_bytes_loop bsz F Ht) Hc) as (f' & H).
  unfold flush_entries. rewrite Hseek. cbn [fst]. fold F.
  unfold with_bufio, iobind in H. unfold iobind.
  pose proof (flush_loop_bytes bsz F (new_bwriter (fset_pos (length (f_data (ds_file s))) (ds_file s))) (ds_cache s)) as HL.
  destruct (flush_loop bsz F _) as [[b1 c1] o1]. destruct HL as [HL Hcache]. rewrite HL in H.
  destruct o1 as [[]|e1| |].
  - unfold on_fst. destruct (iomaperr _ (bw_flush fwrite) b1) as [b2 o2]. destruct H as [(E & Hc' & Hq) | (e & j & E & Hc' & Hq)].
    + inversion E; subst. exists (DStore c1 ∅ (ds_total s) 0 (bw_w b2)). split; [exact Hc'|]. left. split; [done|]. unfold quiet_store.
      cbn [ds_cache ds_new ds_total ds_unflushed ds_file]. rewrite Hq, (Hcache eq_refl). done.
    + inversion E; subst. exists (DStore c1 (ds_new s) (ds_total s) (ds_unflushed s) (bw_w b2)).
      split; [exact Hc'|]. right. exists e, j. split; [done|]. cbn [ds_file]. by rewrite Hq.
  - destruct H as [(E & _) | (e & j & E & Hc' & Hq)]; [discriminate E|]. inversion E; subst.
    exists (DStore c1 (ds_new s) (ds_total s) (ds_unflushed s) (bw_w b1)).
    split; [exact Hc'|]. right. exists e, j. split; [done|]. cbn [ds_file]. by rewrite Hq.
  - destruct H as [(E & _) | (e & j & E & _)]; discriminate E.
  - destruct H as [(E & _) | (e & j & E & _)]; discriminate E.
Qed.

(** [g]: the file of [s] had nothing failed and Flush been called. *)
Lemma d_flush_faulty bsz sh h E s0 s : dinv h E s0 -> Z.of_nat (length h) < 2 ^ 32 -> s0 = quiet_store s ->
  let g := flushed_file (ds_total s) (visit sh (ds_new s)) (quiet (ds_file s)) in
  exists s', f_closed (ds_file s') = false /\ ((d_flush bsz sh s = (s', Ret tt) /\ d_flush bsz sh s0 = (quiet_store s', Ret tt) /\
       quiet (ds_file s') = g) \/
    (exists e j, d_flush bsz sh s = (s', Err e) /\ f_data (ds_file s') = crash_image (quiet (ds_file s)) g j)).
Proof.
  intros I Hl Hs0 g. pose proof (visit_typed h E s0 sh I) as Ht. pose proof (di_ok _ _ _ I) as [Hcl _].
  pose proof (inv_seek h E s0 8 I ltac:(lia)) as Hsk. pose proof (di_data _ _ _ I) as Hd.
  pose proof (written_flush h E s0 sh I) as Hw.
  assert (Hok : d_flush bsz sh s0 = (DStore (addto (ds_cache s) (visit sh (ds_new s))) ∅ (ds_total s) 0 g, Ret tt)).
  { rewrite d_flush_ok; [by rewrite Hs0|apply I|done|done]. }
  rewrite Hs0 in Ht, Hcl, Hsk, Hd, Hw. cbn [quiet_store ds_new ds_file quiet f_closed ds_total] in Ht, Hcl, Hw.
  change (f_data (quiet (ds_file s)) = img 1 E) in Hd. fold g in Hw.
  assert (Hd' : f_data (ds_file s) = img 1 E) by exact Hd.
  rewrite Hok. unfold d_flush, iobind, iomaperr.
  destruct (flush_header_faulty bsz s Hcl Hsk) as (s1 & Hc1 & [[-> Hq1] | (e & j & -> & Hq1)]).
  2:{ exists s1. split; [done|]. right. eexists _, (j `min` 6)%nat. split; [done|].
      apply (f_equal f_data) in Hq1. change (f_data (quiet (ds_file s1))) with (f_data (ds_file s1)) in Hq1. rewrite Hq1.
      rewrite fput_replay. cbn [fset_pos f_pos f_data]. unfold crash_image. rewrite Hw.
      rewrite (take_app_le (wsets 8 _)) by (rewrite wsets_length; cbn; lia). rewrite wsets_take. do 2 f_equal.
      destruct (decide (j <= 6)%nat); [by rewrite Nat.min_l|]. rewrite Nat.min_r by lia. by rewrite !take_ge by (cbn; lia). }
  assert (Hn1 : ds_new s1 = ds_new s) by (by apply (f_equal ds_new) in Hq1).
  assert (Hm1 : ds_cache s1 = ds_cache s) by (by apply (f_equal ds_cache) in Hq1).
  assert (Ht1 : ds_total s1 = ds_total s) by (by apply (f_equal ds_total) in Hq1).
  assert (Hf1 : quiet (ds_file s1) = hdr_file (ds_total s) (quiet (ds_file s))) by (by apply (f_equal ds_file) in Hq1).
  destruct (flush_entries_faulty bsz sh s1 Hc1) as (s2 & Hc2 & [[-> Hq2] | (e & j & -> & Hq2)]); [by rewrite Hn1| |].
  - exists s2. split; [done|]. left. split; [done|]. rewrite Hq2.
    assert (Hg : fput (recs (visit sh (ds_new s1))) (fset_pos (length (f_data (ds_file s1))) (quiet (ds_file s1))) = g).
    { change (f_data (ds_file s1)) with (f_data (quiet (ds_file s1))). by rewrite Hf1, Hn1. }
    split; [by rewrite Hg, Hm1, Hn1, Ht1|]. apply (f_equal ds_file) in Hq2. cbn [quiet_store ds_file] in Hq2. by rewrite Hq2.
  - exists s2. split; [done|]. right. eexists _, (6 + j)%nat. split; [done|].
    apply (f_equal f_data) in Hq2. change (f_data (quiet (ds_file s2))) with (f_data (ds_file s2)) in Hq2. rewrite Hq2.
    rewrite fput_replay. cbn [fset_pos f_pos f_data].
    change (f_data (quiet (ds_file s1))) with (f_data (ds_file s1)).
    change (f_data (ds_file s1)) with (f_data (quiet (ds_file s1))). rewrite Hf1, Hn1.
    rewrite (hdr_file_data _ E _ Hd) at 1. rewrite !app_length, be_enc_length, recs_length. cbn [length delta_magic].
    unfold hdr_file. rewrite fput_replay. cbn [fset_pos f_pos f_data]. unfold crash_image. rewrite Hw.
    rewrite (firstn_app (6 + j)), wsets_length. rewrite (take_ge (wsets 8 _)) by (rewrite wsets_length; cbn; lia).
    rewrite replay_app. change (length ([1; 1] ++ be_enc 4 (u32 (ds_total s)))) with 6%nat.
    replace (6 + j - 6)%nat with j by lia. rewrite wsets_take. done.
Qed.

(** ** Close *)

Lemma flushed_all h E s sh : dinv h E s ->
  let g := flushed_file (ds_total s) (visit sh (ds_new s)) (ds_file s) in
  f_data g = crash_image (ds_file s) g (6 + 18 * length (visit sh (ds_new s))).
Proof.
  intros I g. unfold crash_image, g. rewrite (written_flush h E s sh I).
  rewrite take_ge by (rewrite app_length, !wsets_length, recs_length; cbn [length app]; rewrite be_enc_length; lia).
  unfold flushed_file. rewrite fput_replay. cbn [fset_pos f_pos f_data].
  rewrite (hdr_file_data _ E _ (di_data _ _ _ I)) at 1. rewrite !app_length, be_enc_length, recs_length. cbn [length delta_magic].
  unfold hdr_file. rewrite fput_replay. cbn [fset_pos f_pos f_data]. by rewrite replay_app.
Qed.

(** Rewriting the lock byte fails before the byte is written, or after, or not at all. *)
Lemma write_locked_faulty off b f : f_closed f = false -> can_seek f (f_pos f) -> (off < length (f_data f))%nat ->
  exists f', (write_locked_at (Z.of_nat off) b f = (f', Ret tt) /\ f_closed f' = false /\
      f_data f' = splice off [lock_bit b] (f_data f)) \/
    (exists e, write_locked_at (Z.of_nat off) b f = (f', Err e) /\
      (f_data f' = f_data f \/ f_data f' = splice off [lock_bit b] (f_data f))).
Proof.
  intros Hc Hp Ho. unfold write_locked_at, iobind.
  assert (Hcur : fseek 0 SeekCurrent f = (f, Ret (Z.of_nat (f_pos f)))).
  { pose proof (seek_can f (f_pos f) Hc Hp) as Hx. unfold fseek in *. rewrite Hc in *. rewrite Z.add_0_r.
    rewrite Hx. f_equal. by destruct f. }
  rewrite Hcur. rewrite (seek_can f off Hc) by (right; lia). unfold write_all.
  change (if b then 1 else 0) with (lock_bit b).
  destruct (fwrite_faulty [lock_bit b] (fset_pos off f) Hc) as (f1 & n & e & -> & Hc1 & Hn & Hq & Hall).
  assert (Hd1 : f_data f1 = f_data (fput (take n [lock_bit b]) (fset_pos off (quiet f)))).
  { apply (f_equal f_data) in Hq. exact Hq. }
  assert (Hk1 : f_kind f1 = f_kind f).
  { apply (f_equal f_kind) in Hq. rewrite fput_kind in Hq. exact Hq. }
  destruct e as [e|].
  - exists f1. right. exists e. split; [done|]. destruct n as [|n]; [by left|].
    right. rewrite Hd1. cbn [take]. rewrite take_nil. done.
  - rewrite (Hall eq_refl) in Hd1. cbn [length take] in Hd1.
    assert (Hd2 : f_data f1 = splice off [lock_bit b] (f_data f)) by exact Hd1.
    assert (Hp1 : can_seek f1 (f_pos f)).
    { destruct Hp as [Hp | Hp]; [left; congruence|]. right. rewrite Hd2, splice_length. cbn [length]. lia. }
    rewrite (seek_can f1 _ Hc1 Hp1). eexists. left. split; [done|]. split; [exact Hc1|exact Hd2].
Qed.

Lemma fclose_closes f : f_closed f = false -> f_closed (fst (fclose f)) = true.
Proof. intros Hc. unfold fclose, next_fault. rewrite Hc. by destruct (f_kind f), (f_env f) as [|[] ?]. Qed.

(** Close saves everything and says so, or fails: then the file is still locked and has
    some of what Flush writes, or it is unlocked and has everything. *)
Lemma d_close_faulty bsz sh h E s0 s : dinv h E s0 -> Z.of_nat (length h) < 2 ^ 32 -> s0 = quiet_store s ->
  let g := flushed_file (ds_total s0) (visit sh (ds_new s0)) (ds_file s0) in
  exists s', (d_close bsz sh s = (s', Ret tt) /\ f_closed (ds_file s') = true /\
      f_data (ds_file s') = img 0 (E ++ visit sh (ds_new s0))) \/
    (exists e, d_close bsz sh s = (s', Err e) /\
      (f_data (ds_file s') = img 0 (E ++ visit sh (ds_new s0)) \/
       exists j, f_data (ds_file s') = crash_image (ds_file s0) g j)).
Proof.
  intros I Hl Hs0 g.
  destruct (d_flush_faulty bsz sh h E s0 s I Hl Hs0) as (s1 & Hc1 & [(E1 & E0 & Hq) | (e & j & E1 & Hd)]).
  2:{ exists s1. right. eexists. split; [|right; exists j; unfold g; rewrite Hs0; exact Hd].
      unfold d_close, iobind at 1, iomaperr at 1. rewrite E1. reflexivity. }
  destruct (flush_inv bsz sh h E s0 I Hl) as (s2 & H2 & I2 & Hf2 & _). rewrite E0 in H2. injection H2 as <-.
  assert (Hd1 : f_data (ds_file s1) = img 1 (E ++ visit sh (ds_new s0))) by apply (di_data _ _ _ I2).
  assert (Hp1 : can_seek (ds_file s1) (f_pos (ds_file s1))) by apply (di_pos _ _ _ I2).
  assert (Hsp : splice 9 [lock_bit false] (f_data (ds_file s1)) = img 0 (E ++ visit sh (ds_new s0))).
  { rewrite Hd1, !img_enc. done. }
  assert (Eq : d_close bsz sh s =
    (run iomaperr (fun _ => EMsg "failed to lock the file") (on_dfile (write_locked_at (Z.of_nat 9) false));
     iomaperr (fun _ => EMsg "failed to close the underlying file") (on_dfile fclose)) s1).
  { unfold d_close, iobind at 1, iomaperr at 1. rewrite E1. reflexivity. }
  rewrite Eq. clear Eq. unfold iobind, on_dfile, iomaperr.
  destruct (write_locked_faulty 9 false (ds_file s1) Hc1 Hp1) as (f2 & [(E2 & Hc2 & Hd2) | (e & E2 & Hd2)]).
  { rewrite Hd1, img_length. lia. }
  - rewrite E2. cbn [ds_file]. pose proof (fclose_data f2) as Hfd. pose proof (fclose_closes f2 Hc2) as Hfc.
    destruct (fclose_ends f2) as [(f4 & E4) | (f4 & e & E4)]; rewrite E4 in *; cbn [fst] in Hfd, Hfc.
    + eexists. left. split; [reflexivity|]. cbn [ds_file]. split; [done|]. by rewrite Hfd, Hd2.
    + eexists. right. eexists. split; [reflexivity|]. cbn [ds_file]. left. by rewrite Hfd, Hd2.
  - rewrite E2. eexists. right. eexists. split; [reflexivity|]. cbn [ds_file]. destruct Hd2 as [Hd2 | Hd2].
    + right. eexists. rewrite Hd2. unfold g. rewrite <- (flushed_all h E s0 sh I). rewrite <- Hf2. done.
    + left. by rewrite Hd2.
Qed.

(** Opening an unlocked file does not recover it. *)
Lemma open_unlocked_maybe csz f E f' t : usable f -> f_pos f = 0%nat -> f_data f = img 0 E ->
  d_open f = (f', Ret t) -> d_open_maybe_recover csz f = (f', Ret t).
Proof.
  intros Hu Hp Hd Ho. unfold d_open_maybe_recover, iobind, iomaperr at 1. unfold d_is_locked.
  change delta_locked_offset with (Z.of_nat 9).
  rewrite (is_locked_ok 9 0); [|by destruct Hu as (? & ? & _)|right; lia|by rewrite Hd, img_enc].
  cbn [Z.eqb negb]. unfold ioret. by rewrite Ho.
Qed.
