(** Delta storage and I/O errors, interrupted creation, silent corruption: C61-C64. *)
From Verif Require Import Base GoIO Lock Delta SpecFile SpecLock SpecDelta SpecCrash GoIOFacts FileBufferFacts
  CodecFacts LockFacts DeltaFacts DeltaRecoverFacts DeltaStoreFacts DeltaSession DeltaHistFacts
  DeltaCrashFacts DeltaRecCrashFacts DeltaWideFacts PropDeltaStore PropDeltaCrash.

(** The open storage [s] when from now on the reads and writes of its file go as the
    script [env] says (and succeed once it is used up). *)
Definition failing (env : list fault) (s : dstore) : dstore :=
  let f := ds_file s in
  DStore (ds_cache s) (ds_new s) (ds_total s) (ds_unflushed s)
    (File (f_kind f) (f_data f) (f_pos f) (f_closed f) env (f_log f)).

(** * C61 *)

(** False: if the last flush or the unlocking fails the file stays open. *)
Theorem C61_delta_close_releases_file_refuted :
  ~ (forall bsz h s env sh, session bsz h s -> f_closed (ds_file (fst (d_close bsz sh (failing env s)))) = true).
Proof.
  intros H.
  destruct (delta_sessions_exist 16 (open_file KOs []) []) as (f' & s0 & s & Ho & Hc & Hs).
  - split; [done|]. split; [done|]. by left.
  - done.
  - by constructor.
  - cbn. lia.
  - specialize (H 16%nat _ s [FErr 0] (Shuffle _ (fun l => l) (fun l => reflexivity l)) Hs).
    vm_compute in Ho; injection Ho as <- <-; vm_compute in Hc; injection Hc as <-. by vm_compute in H.
Qed.
Print Assumptions C61_delta_close_releases_file_refuted.

(** It is released whenever Close reports no error, and Close reports none if there
    are no I/O errors. *)
Theorem C61_delta_close_releases_file_partial :
  (forall bsz sh s s', d_close bsz sh s = (s', Ret tt) -> f_closed (ds_file s') = true) /\
  (forall bsz h s sh, session bsz h s ->
   exists s', d_close bsz sh s = (s', Ret tt) /\ f_closed (ds_file s') = true).
Proof.
  split.
  - intros bsz sh s s' H. unfold d_close, iobind at 1 2 in H.
    destruct (iomaperr _ (d_flush bsz sh) s) as [s1 [[]|e| |]]; [|done..].
    destruct (iomaperr _ (on_dfile (d_write_locked false)) s1) as [s2 [[]|e| |]]; [|done..].
    unfold iomaperr, on_dfile in H. pose proof (fclose_closed (ds_file s2)) as Hc.
    destruct (fclose (ds_file s2)) as [f' [[]|e| |]]; try done. by injection H as <-.
  - intros bsz h s sh Hs. destruct (session_wide bsz h s Hs) as (E & V & W).
    destruct (winv_close bsz sh E V s W) as (s' & H & _ & Hc). by exists s'.
Qed.
Print Assumptions C61_delta_close_releases_file_partial.

Example C61_case : exists f' s s',
  d_open (open_file KOs []) = (f', Ret s) /\
  d_close 16 (Shuffle _ (fun l => l) (fun l => reflexivity l)) s = (s', Ret tt) /\
  f_closed (ds_file s) = false /\ f_closed (ds_file s') = true.
Proof. eexists _, _, _. split; [by vm_compute|]. split; [by vm_compute|]. split; by vm_compute. Qed.

(** * C62 *)

(** False: the entries of the failed Flush stay in the file, so the second Flush adds
    the same entries behind a torn one, and reopening reads garbage. *)
Theorem C62_flush_retry_refuted :
  ~ (forall bsz h s env sh s1 e sh' s2 sh'' s3 f f' t, session bsz h s -> Z.of_nat (length h) < 2 ^ 32 ->
     d_flush bsz sh (failing env s) = (s1, Err e) ->
     d_flush bsz sh' (failing [] s1) = (s2, Ret tt) ->
     d_close bsz sh'' s2 = (s3, Ret tt) ->
     usable f -> f_data f = f_data (ds_file s3) -> d_open f = (f', Ret t) ->
     forall user item, d_get t user item = d_get s2 user item).
Proof.
  intros H. set (sh := Shuffle _ (fun l : list (Z * list item_delta) => l) (fun l => reflexivity l)).
  destruct (delta_sessions_exist 64 (open_file KOs []) [DAdd 43 1 10]) as (f' & s0 & s & Ho & Hc & Hs).
  - split; [done|]. split; [done|]. by left.
  - done.
  - by repeat (apply Forall_cons; split; [done|]).
  - cbn. lia.
  - vm_compute in Ho; injection Ho as <- <-; vm_compute in Hc; injection Hc as <-.
    match type of Hs with session _ ?h ?s =>
      set (s1 := fst (d_flush 64 sh (failing [FOk; FErr 5] s)));
      set (s2 := fst (d_flush 64 sh (failing [] s1)));
      set (s3 := fst (d_close 64 sh s2));
      set (f := open_file KOs (f_data (ds_file s3)));
      set (t := match d_open f with (_, Ret t) => t | _ => s end);
      specialize (H 64%nat h s [FOk; FErr 5] sh s1 (EMsg "failed to flush entries") sh s2 sh s3 f (fst (d_open f)) t Hs)
    end.
    assert (Hx : d_get t 1 10 = d_get s2 1 10).
    { apply H; try by vm_compute. split; [done|]. split; [done|]. by left. }
    by vm_compute in Hx.
Qed.
Print Assumptions C62_flush_retry_refuted.

(** An error while the header is written is harmless: a later Flush that succeeds
    leaves the storage as if there had been no error. *)
Lemma bw_write_fits size p b : bw_err b = None -> (length (bw_buf b) + length p <= size)%nat ->
  bw_write fwrite size p b = (BWriter (bw_w b) (bw_buf b ++ p) None, (length p, None)).
Proof.
  intros He Hs. unfold bw_write. rewrite Nat.add_comm. cbn [bw_write_loop Nat.add]. rewrite He.
  rewrite (proj2 (Nat.leb_le _ _)) by lia. done.
Qed.

Theorem C62_flush_retry_partial :
  forall bsz h s k sh, session bsz h s -> Z.of_nat (length h) < 2 ^ 32 -> (6 <= bsz)%nat ->
  exists s1 e s2 s2', d_flush bsz sh (failing [FErr k] s) = (s1, Err e) /\
    d_flush bsz sh (failing [] s1) = (s2, Ret tt) /\ d_flush bsz sh s = (s2', Ret tt) /\
    ds_cache s2 = ds_cache s2' /\ ds_new s2 = ds_new s2' /\ ds_total s2 = ds_total s2' /\
    f_data (ds_file s2) = f_data (ds_file s2').
Proof.
  intros bsz h s k sh Hs Hl Hb. destruct (session_inv bsz h s Hs Hl) as [E I].
  pose proof (visit_typed h E s sh I) as Ht.
  pose proof (di_data _ _ _ I) as Hd. pose proof (di_ok _ _ _ I) as [Hcl Henv].
  assert (Hlen : (14 <= length (f_data (ds_file s)))%nat) by (rewrite Hd, img_length; lia).
  set (hdr := [1; 1] ++ be_enc 4 (u32 (ds_total s))).
  set (f8 := fset_pos 8 (ds_file s)).
  set (s1 := DStore (ds_cache s) (ds_new s) (ds_total s) (ds_unflushed s) (fput (take k hdr) f8)).
  assert (H1 : d_flush bsz sh (failing [FErr k] s) = (s1, Err (EMsg "failed to flush header"))).
  { unfold d_flush, iobind at 1, iomaperr at 1, flush_header, on_dfile, iobind at 1, ignore.
    change delta_prefix_len with (Z.of_nat 8). cbn [failing ds_file ds_total].
    set (ff := File _ _ _ _ _ _).
    assert (Hsk : fseek (Z.of_nat 8) SeekStart ff = (fset_pos 8 ff, Ret 8)).
    { unfold fseek, ff. cbn [f_closed f_kind f_data]. rewrite Hcl. change (Z.of_nat 8 <? 0) with false.
      rewrite (proj2 (Z.ltb_ge _ _)) by lia. by destruct (f_kind (ds_file s)). }
    rewrite Hsk. cbn [fst]. unfold with_bufio, iobind at 1, iomaperr at 1, d_write_header, iobind at 1 2, write_uint, write_all.
    cbn [dh_version dh_locked dh_count].
    rewrite bw_write_fits by (cbn; first [done|lia]). rewrite bw_write_fits by (cbn; first [done|lia]).
    rewrite bw_write_fits by (cbn; first [done|lia]). cbn [bw_w new_bwriter bw_buf app].
    unfold iomaperr, bw_flush. cbn [bw_err bw_buf bw_w].
    unfold fwrite. subst ff. cbn [fset_pos f_closed f_env f_kind f_data f_pos f_log next_fault]. rewrite Hcl.
    unfold next_fault. cbn [f_env]. unfold s1, f8, hdr, fset_pos. rewrite Henv, Hcl.
    cbn [bw_w ds_cache ds_new ds_total ds_unflushed f_kind f_data f_pos f_closed f_env f_log]. done. }
  destruct (flush_inv bsz sh h E s I Hl) as (s2' & H2' & _ & Hf2' & _).
  assert (Hf1 : failing [] s1 = s1).
  { unfold failing, s1. cbn [ds_file ds_cache ds_new ds_total ds_unflushed]. rewrite fput_kind, fput_closed.
    destruct (fput (take k hdr) f8) as [k' d' p' c' e' l'] eqn:Ef. cbn [f_data f_pos f_log].
    pose proof (fput_kind (take k hdr) f8) as Hk. pose proof (fput_closed (take k hdr) f8) as Hc.
    pose proof (fput_env (take k hdr) f8) as He. rewrite Ef in Hk, Hc, He. cbn in Hk, Hc, He. subst k' c' e'.
    unfold f8 at 2. cbn [fset_pos f_env]. by rewrite Henv. }
  assert (Hh1 : healthy (ds_file s1)) by (by apply fput_healthy, fset_pos_healthy).
  assert (Hp8 : (f_pos f8 <= length (f_data f8))%nat) by (cbn; lia).
  assert (Hd1 : f_data (ds_file s1) = splice 8 (take k hdr) (f_data (ds_file s))) by exact (fput_data (take k hdr) f8 Hp8).
  eexists s1, _, _, s2'. split; [exact H1|]. rewrite Hf1, d_flush_ok; [|done| |done].
  2:{ right. rewrite Hd1, splice_length. lia. }
  split; [done|]. split; [done|].
  rewrite d_flush_ok in H2'; [|apply I|by right; lia|done]. injection H2' as <-.
  cbn [ds_cache ds_new ds_total ds_file]. split; [done|]. split; [done|]. split; [done|].
  assert (Hhdr : f_data (hdr_file (ds_total s) (ds_file s1)) = f_data (hdr_file (ds_total s) (ds_file s))).
  { unfold hdr_file. rewrite !fput_data; cbn [fset_pos f_pos f_data]; [|lia|rewrite Hd1, splice_length; lia].
    fold hdr. rewrite Hd1.
    rewrite <- (take_drop 8 (f_data (ds_file s))).
    assert (H8 : length (take 8 (f_data (ds_file s))) = 8%nat) by (rewrite take_length; lia).
    rewrite (splice_prefix 8 (take k hdr)) by done. rewrite !(splice_prefix 8 hdr) by done.
    do 2 f_equal. assert (Hhl : length hdr = 6%nat) by done.
    rewrite take_length, Hhl. rewrite drop_app_ge by (rewrite take_length; lia).
    rewrite drop_drop. f_equal. rewrite take_length. lia. }
  unfold flushed_file. rewrite !fput_data by (cbn; lia). cbn [fset_pos f_pos f_data]. change (ds_total s1) with (ds_total s). by rewrite Hhdr.
Qed.
Print Assumptions C62_flush_retry_partial.

(** The disk is full after 3 bytes of the header. *)
Example C62_case :
  let sh := Shuffle _ (fun l : list (Z * list item_delta) => l) (fun l => reflexivity l) in
  exists s s1 s2, session 16 [EvAdd 43 1 10] s /\
    d_flush 16 sh (failing [FErr 3] s) = (s1, Err (EMsg "failed to flush header")) /\
    d_flush 16 sh s1 = (s2, Ret tt) /\ f_data (ds_file s2) = delta_image 1 [op_record 43 1 10].
Proof.
  cbn zeta.
  edestruct (delta_sessions_exist 16 (open_file KOs []) [DAdd 43 1 10]) as (f' & s0 & s & Ho & Hc & Hs).
  - split; [done|]. split; [done|]. by left.
  - done.
  - by repeat (apply Forall_cons; split; [done|]).
  - cbn. lia.
  - vm_compute in Ho; injection Ho as <- <-; vm_compute in Hc; injection Hc as <-.
    eexists _, _, _. split; [exact Hs|]. split; [by vm_compute|]. split; [by vm_compute|]. by vm_compute.
Qed.

(** * C63 *)

(** Dying while Open creates the file.  It writes 14 bytes, then the lock byte. *)
Definition crash_in_creation (j : nat) (f : file) : Prop :=
  exists f0 f0' s0, usable f0 /\ f_data f0 = [] /\ d_open f0 = (f0', Ret s0) /\
    usable f /\ f_data f = crash_image f0 f0' j.

Lemma creation_log f f' s : healthy f -> f_data f = [] -> d_open f = (f', Ret s) ->
  f_log f' = f_log f ++ wsets 0 (delta_image 0 []) ++ [WSet 9 1].
Proof.
  intros Hh Hd. unfold d_open, iobind at 1. rewrite fseek_end by done. rewrite Hd. cbn [length Z.of_nat Z.eqb].
  set (m := iobind (d_write_prefix fwrite) _).
  assert (Hm : emits healthy (fun f => f) m (delta_prefix ++ enc_header (DHeader delta_version 0 0) ++ []) (∅, 0)).
  { eapply emits_bind; [apply emits_prefix, fwrite_lawful|].
    eapply emits_bind; [apply emits_header, fwrite_lawful|]. apply emits_ret. }
  destruct (Hm (fset_pos 0 f)) as (f2 & Hm2 & Hh2 & Hf2); [by apply fset_pos_healthy|].
  change (Z.of_nat 0 =? 0) with true. cbv iota. unfold iobind at 1. rewrite Hm2. rewrite app_nil_r, delta_prefix_magic in Hf2.
  unfold iobind, iomaperr, d_write_locked. change delta_locked_offset with (Z.of_nat 9).
  assert (Hd2 : f_data f2 = delta_image 0 []).
  { rewrite Hf2, fput_data by (cbn; lia). cbn [fset_pos f_pos f_data]. by rewrite Hd. }
  assert (Hp2 : f_pos f2 = 14%nat) by (rewrite Hf2, fput_pos; done).
  rewrite write_locked_ok; [|done|right; rewrite Hd2, Hp2; cbn; lia|right; rewrite Hd2; cbn; lia].
  intros [= <- _]. cbn [f_log]. rewrite Hf2, fput_log. by rewrite <- app_assoc.
Qed.

Lemma creation_image j f : crash_in_creation j f ->
  f_data f = if decide (j <= 14)%nat then take j (delta_image 0 []) else delta_image 1 [].
Proof.
  intros (f0 & f0' & s0 & Hu0 & Hd0 & Ho & Hu & ->). destruct Hu0 as (Hc & He & _).
  unfold crash_image, written_by. rewrite (creation_log f0 f0' s0 (conj Hc He) Hd0 Ho), drop_app_alt, Hd0 by done.
  destruct (decide (j <= 14)%nat) as [Hj | Hj].
  - rewrite take_app_le by done. rewrite wsets_take, replay_wsets by (right; cbn; lia).
    unfold splice. rewrite take_0, drop_nil, app_nil_r. done.
  - rewrite take_ge by (rewrite app_length, wsets_length; cbn; lia). by vm_compute.
Qed.

(** False: until the 14 bytes are written no later Open or OpenMaybeRecover accepts the
    file. *)
Theorem C63_crash_in_creation_refuted :
  forall csz j f, crash_in_creation j f -> (0 < j < 14)%nat ->
  (exists f' e, d_open f = (f', Err e) /\ f_data f' = f_data f) /\
  (exists f' e, d_open_maybe_recover csz f = (f', Err e) /\ f_data f' = f_data f).
Proof.
  intros csz j f Hcr Hj. pose proof (creation_image j f Hcr) as Hd. rewrite decide_True in Hd by lia.
  destruct Hcr as (_ & _ & _ & _ & _ & _ & Hu & _).
  assert (Hlen : length (f_data f) = j) by (rewrite Hd, take_length; cbn; lia).
  assert (Hbad : exists f' e, d_open f = (f', Err e) /\ f_data f' = f_data f).
  { apply C27_open_rejects_bad_files; [done| |right; left; lia]. intros E. rewrite E in Hlen. cbn in Hlen. lia. }
  split; [done|]. destruct Hu as (Hc & He & Hp).
  unfold d_open_maybe_recover, iobind at 1, iomaperr at 1.
  change d_is_locked with (is_locked_at (Z.of_nat 9)).
  destruct (decide (j <= 9)%nat) as [Hs | Hs].
  - destruct (is_locked_short 9 f) as (f' & e & H & Hd' & _); [done|done|lia|]. rewrite H. eauto.
  - assert (Hx : f_data f !! 9%nat = Some 0) by (rewrite Hd, lookup_take by lia; done).
    rewrite (is_locked_ok 9 0) by done. cbn [negb Z.eqb]. unfold iobind, ioret.
    destruct Hbad as (f' & e & Ho & Hd'). rewrite Ho. eexists _, _. split; [done|]. by rewrite fclose_data.
Qed.
Print Assumptions C63_crash_in_creation_refuted.

(** From then on it opens as an empty storage. *)
Theorem C63_crash_in_creation_partial :
  forall csz j f, crash_in_creation j f -> (14 <= j)%nat -> (0 < csz)%nat -> f_pos f = 0%nat ->
  exists f' t, d_open_maybe_recover csz f = (f', Ret t) /\ d_total_count t = 0 /\
    forall user item, d_get t user item = None.
Proof.
  intros csz j f Hcr Hj Hcsz Hp. pose proof (creation_image j f Hcr) as Hd.
  destruct Hcr as (_ & _ & _ & _ & _ & _ & Hu & _).
  assert (Hx : exists f1 f' t, usable f1 /\ f_data f1 = img 0 [] /\ d_open f1 = (f', Ret t) /\
    d_open_maybe_recover csz f = (f', Ret t)).
  { destruct (decide (j <= 14)%nat).
    - replace j with 14%nat in Hd by lia.
      destruct (DeltaRecCrashFacts.open_unlocked csz f []) as (f' & t & ? & ?); [done|by constructor|cbn; lia|done|].
      by exists f, f', t.
    - destruct (DeltaCrashFacts.torn_open csz f [] [] [0;0;0;0] 0) as (k & f1 & f' & t & Hk & _ & Hu1 & Hd1 & Ho & Hr); try done.
      { by repeat (apply Forall_cons; split; [done|]). }
      exists f1, f', t. rewrite take_nil in Hd1. done. }
  destruct Hx as (f1 & f' & t & (Hc1 & He1 & Hp1) & Hd1 & Ho & Hr). exists f', t. split; [done|].
  destruct (d_open_image f1 []) as (p & _ & Ho'); try done. cbn zeta in Ho'. rewrite Ho in Ho'. injection Ho' as -> ->.
  done.
Qed.
Print Assumptions C63_crash_in_creation_partial.

Example C63_case : exists f, crash_in_creation 9 f.
Proof.
  eexists (open_file KOs (take 9 (delta_image 0 []))), (open_file KOs []), _, _.
  split; [split; [done|split; [done|by left]]|]. split; [done|]. split; [by vm_compute|].
  split; [split; [done|split; [done|by left]]|]. by vm_compute.
Qed.

(** * C64 *)

(** False: Open does not look at the checksums.  Every record, valid or not, of a file
    closed cleanly is loaded. *)
Theorem C64_open_detects_corruption_refuted :
  exists (i : nat) (f f' : file) (t : dstore),
    usable f /\ f_data f = <[i := 11]> (delta_image 0 [op_record 43 1 10]) /\
    ~ valid_record (drop 14 (f_data f)) /\
    d_open f = (f', Ret t) /\ d_get t 1 10 = None /\ d_get t 1 11 = Some 43.
Proof.
  eexists 30%nat, (open_file KOs _), _, _.
  split; [split; [done|split; [done|by left]]|]. split; [reflexivity|].
  split; [by vm_compute|]. split; [by vm_compute|]. by vm_compute.
Qed.
Print Assumptions C64_open_detects_corruption_refuted.

(** What Open does with any last bytes of the records. *)
Theorem C64_open_ignores_checksums :
  forall f (xs : list (Z * Z * Z * Z)), usable f -> Forall (fun x => op_typed (fst x)) xs ->
  Z.of_nat (length xs) < 2 ^ 32 ->
  f_data f = delta_image 0 (map (fun '(op, user, item, sum) => [op] ++ be64 user ++ be64 item ++ [sum]) xs) ->
  exists f' t, d_open f = (f', Ret t) /\ d_total_count t = Z.of_nat (length xs) /\
    forall user item, d_get t user item = last_add (map (fun x => op_event (fst x)) xs) user item.
Proof.
  intros f xs (Hc & He & Hp) Ht Hl Hd.
  destruct (d_open_nonempty f (conj Hc He)) as (p & _ & Ho); [by rewrite Hd|].
  set (rs := map _ xs) in Hd.
  assert (Hlr : length rs = length xs) by (unfold rs; by rewrite map_length).
  assert (Hd' : f_data f = delta_magic ++ 1 :: 0 :: be_enc 4 (Z.of_nat (length rs)) ++ concat rs ++ [])
    by (rewrite Hd, app_nil_r; done).
  rewrite Hd', d_load_ok in Ho.
  - cbn [snd] in Ho. eexists _, _. split; [exact Ho|]. split; [unfold d_total_count; cbn [ds_total]; by rewrite Hlr|].
    intros u i. unfold d_get. cbn [ds_new ds_cache]. rewrite lookup_empty, group_lookup.
    assert (HE : map (fun r => ent_of (dec_entry r)) rs = map op_ent (map fst xs)).
    { unfold rs. rewrite !map_map. clear -Ht. induction Ht as [|[[[op a] b] sm] xs (Ho & Ha & Hb) _ IH]; [done|].
      cbn [map]. f_equal; [|done]. rewrite dec_entry_split by done.
      unfold ent_of. cbn [de_user de_item de_op fst]. change (be64 a) with (be_enc 8 a). change (be64 b) with (be_enc 8 b).
      rewrite !be_dec_enc by (rewrite pow256_8; done). done. }
    rewrite HE. rewrite <- (map_map fst op_event). rewrite <- latest_ops. unfold latest, flast.
    by destruct (of_user u _).
  - apply be_enc_length.
  - rewrite be_dec_enc; [done|]. rewrite pow256_4. lia.
  - unfold rs. clear. induction xs as [|[[[op a] b] sm] xs IH]; constructor; [|done]. done.
Qed.
Print Assumptions C64_open_ignores_checksums.

(** Two records, the second with a checksum that is not its own. *)
Example C64_case : exists f' t,
  d_open (open_file KOs (delta_image 0 (map (fun '(op, user, item, sum) => [op] ++ be64 user ++ be64 item ++ [sum])
    [(43, 1, 10, 0); (43, 2, 20, 99)]))) = (f', Ret t) /\
  Forall (fun x => op_typed (fst x)) [(43, 1, 10, 0); (43, 2, 20, 99)] /\ d_get t 2 20 = Some 43.
Proof.
  eexists _, _. split; [by vm_compute|]. split; [by repeat (apply Forall_cons; split; [done|])|]. by vm_compute.
Qed.
