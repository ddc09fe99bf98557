(** Proofs about Close of the index on a file whose calls may fail. *)
From Verif Require Import Base GoIO Lock Index SpecFile SpecLock SpecCrash SpecIndex IndexSession GoIOFacts
  CodecFacts LockFacts FileBufferFacts DeltaStoreFacts IndexFacts FaultyFacts.

(** The index whose file is to fail as [env] says. *)
Definition i_faults (env : list fault) (s : istore) : istore :=
  let f := is_file s in
  IStore (is_map s) (File (f_kind f) (f_data f) (f_pos f) (f_closed f) env (f_log f)) (is_closer s).

Lemma fclose_data f : f_data (fst (fclose f)) = f_data f.
Proof. unfold fclose, next_fault. destruct (f_kind f), (f_closed f), (f_env f) as [|[] ?]; done. Qed.

Lemma close_if_any c f : f_data (close_if c f) = f_data f.
Proof. destruct c; [apply fclose_data|done]. Qed.

Lemma fclose_ends f : (exists f', fclose f = (f', Ret tt)) \/ (exists f' e, fclose f = (f', Err e)).
Proof. unfold fclose, next_fault. destruct (f_kind f), (f_closed f), (f_env f) as [|[] ?]; eauto. Qed.

Lemma faulty_iheader bsz h : faulty (i_write_header (bw_write fwrite bsz) h) (enc_iheader h).
Proof.
  unfold i_write_header, enc_iheader. eapply faulty_bind; [apply faulty_write_uint|].
  eapply faulty_bind; [apply faulty_write_uint|]. apply faulty_write_uint.
Qed.

Lemma faulty_ientries bsz l : faulty (i_write_entries (bw_write fwrite bsz) l) (ipairs l).
Proof.
  induction l as [|[id idx] l IH]; [apply faulty_ret|]. cbn [i_write_entries]. rewrite ipairs_cons.
  eapply faulty_bind; [|exact IH]. apply faulty_maperr. unfold i_write_entry, ipair.
  eapply faulty_bind; apply faulty_write_uint.
Qed.

(** Closing the file when writing to it fails does not change its content. *)
Lemma closing_bw_bufio {A} c (m : io (bwriter file) unit) (k : io (bwriter file) A) f f' o :
  with_bufio (iobind m (fun _ => k)) f = (f', o) ->
  exists f'', with_bufio (iobind (closing_bw c m) (fun _ => k)) f = (f'', o) /\ f_data f'' = f_data f' /\
    (forall a, o = Ret a -> f'' = f') /\ (c = false -> f_closed f'' = f_closed f').
Proof.
  unfold with_bufio, iobind, closing_bw. destruct (m (new_bwriter f)) as [b [[]|e| |]].
  - destruct (k b) as [b2 o2]. intros [= <- <-]. by exists (bw_w b2).
  - intros [= <- <-]. eexists. split; [done|]. cbn [bw_w]. split; [apply close_if_any|]. split; [done|]. by intros ->.
  - intros [= <- <-]. by exists (bw_w b).
  - intros [= <- <-]. by exists (bw_w b).
Qed.

Lemma seek_can f n : f_closed f = false -> can_seek f n -> fseek (Z.of_nat n) SeekStart f = (fset_pos n f, Ret (Z.of_nat n)).
Proof.
  intros Hc Hs. unfold fseek. rewrite Hc. rewrite Nat2Z.id.
  replace (match f_kind f with KOs => Z.of_nat n <? 0
    | KBuf => (Z.of_nat n <? 0) || (Z.of_nat (length (f_data f)) <? Z.of_nat n) end) with false; [done|].
  assert (H0 : (Z.of_nat n <? 0) = false) by (apply Z.ltb_ge; lia). rewrite H0.
  destruct (f_kind f) eqn:E; [try done..]. cbn [orb]. symmetry. apply Z.ltb_ge.
  destruct Hs as [Hs | Hs]; [congruence|]. lia.
Qed.

Lemma save_header_faulty bsz m c f : f_closed f = false -> can_seek f 6 ->
  let n := Z.of_nat (size m) in
  exists f', (i_save_header bsz false m c f = (f', Ret tt) /\ f_closed f' = false /\ quiet f' = ihdr_file n (quiet f)) \/
    (exists e j, i_save_header bsz false m c f = (f', Err e) /\
      f_data f' = f_data (fput (take j (hdr0 n)) (fset_pos 6 (quiet f))) /\ (c = false -> f_closed f' = false)).
Proof.
  intros Hc Hs n.
  assert (Eq : i_save_header bsz false m c f = with_bufio (
    run closing_bw c (iomaperr (fun _ => EMsg "failed to write index header")
      (i_write_header (bw_write fwrite bsz) (IHeader index_version 0 (u32 n))));
    iomaperr (fun _ => EMsg "failed flush buffer") (bw_flush fwrite)) (fset_pos 6 f)).
  { unfold i_save_header. unfold iobind at 1, closing, iomaperr at 1.
    change index_prefix_len with (Z.of_nat 6). by rewrite (seek_can f 6 Hc Hs). }
  rewrite Eq.
  destruct (buffered_faulty _ _ (fun _ => EMsg "failed flush buffer") (fset_pos 6 f)
    (faulty_maperr (fun _ => EMsg "failed to write index header") _ _ (faulty_iheader bsz (IHeader index_version 0 (u32 n)))) Hc)
    as (f' & [(E & Hc' & Hq) | (e & j & E & Hc' & Hq)]); rewrite enc_iheader0 in Hq;
    apply (closing_bw_bufio c) in E as (f'' & E & Hd & Hr & Hk).
  - exists f''. left. split; [exact E|]. rewrite (Hr tt eq_refl). split; [done|exact Hq].
  - exists f''. right. exists e, j. split; [exact E|]. rewrite Hd. split; [by apply (f_equal f_data) in Hq|].
    intros Hn. by rewrite (Hk Hn).
Qed.

Lemma save_entries_faulty bsz sh m f : f_closed f = false -> can_seek f 12 ->
  let l := shuf sh (map_to_list m) in
  exists f', (i_save_entries bsz sh m f = (f', Ret tt) /\ f_closed f' = false /\ quiet f' = fput (ipairs l) (fset_pos 12 (quiet f))) \/
    (exists e j, i_save_entries bsz sh m f = (f', Err e) /\
      f_data f' = f_data (fput (take j (ipairs l)) (fset_pos 12 (quiet f))) /\ f_closed f' = false).
Proof.
  intros Hc Hs l.
  assert (Eq : i_save_entries bsz sh m f = with_bufio (
    run i_write_entries (bw_write fwrite bsz) l;
    iomaperr (fun _ => EMsg "failed flush buffer") (bw_flush fwrite)) (fset_pos 12 f)).
  { unfold i_save_entries. unfold iobind at 1, iomaperr at 1.
    change index_entries_offset with (Z.of_nat 12). by rewrite (seek_can f 12 Hc Hs). }
  rewrite Eq.
  destruct (buffered_faulty _ _ (fun _ => EMsg "failed flush buffer") (fset_pos 12 f) (faulty_ientries bsz l) Hc)
    as (f' & [(E & Hc' & Hq) | (e & j & E & Hc' & Hq)]); exists f'.
  - left. done.
  - right. exists e, j. split; [done|]. split; [by apply (f_equal f_data) in Hq|done].
Qed.

Lemma crash_image_hdr n l f j :
  f_data (fput (take j (hdr0 n)) (fset_pos 6 f)) = crash_image f (isaved_file n l f) (j `min` 6).
Proof.
  rewrite fput_replay. cbn [fset_pos f_pos f_data]. unfold crash_image, written_by.
  rewrite isaved_log, drop_app_alt by done.
  rewrite take_app_le by (rewrite wsets_length; cbn; lia). rewrite wsets_take. do 2 f_equal.
  destruct (decide (j <= 6)%nat); [by rewrite Nat.min_l|]. rewrite Nat.min_r by lia. by rewrite !take_ge by (cbn; lia).
Qed.

Lemma crash_image_pairs n l f j :
  f_data (fput (take j (ipairs l)) (fset_pos 12 (ihdr_file n f))) = crash_image f (isaved_file n l f) (6 + j).
Proof.
  rewrite fput_replay. cbn [fset_pos f_pos f_data]. unfold ihdr_file at 1. rewrite fput_replay. cbn [fset_pos f_pos f_data].
  unfold crash_image, written_by. rewrite isaved_log, drop_app_alt by done.
  rewrite (firstn_app (6 + j)), wsets_length. change (length (hdr0 n)) with 6%nat.
  rewrite (take_ge (wsets 6 _)) by (rewrite wsets_length; cbn; lia).
  replace (6 + j - 6)%nat with j by lia. by rewrite wsets_take, replay_app.
Qed.

Lemma crash_image_all n l f :
  f_data (isaved_file n l f) = crash_image f (isaved_file n l f) (6 + length (ipairs l)).
Proof. rewrite <- crash_image_pairs, firstn_all. done. Qed.

(** Close succeeds and has written everything, or fails and has written some of it. *)
Lemma i_close_faulty bsz sh s : f_closed (is_file s) = false -> can_seek (is_file s) 6 ->
  let f0 := quiet (is_file s) in
  let f1 := isaved_file (Z.of_nat (size (is_map s))) (shuf sh (map_to_list (is_map s))) f0 in
  exists s', (i_close bsz sh s = (s', Ret tt) /\ f_data (is_file s') = f_data f1) \/
    (exists e j, i_close bsz sh s = (s', Err e) /\ f_data (is_file s') = crash_image f0 f1 j).
Proof.
  intros Hc Hs f0 f1. unfold i_close, iobind, closing.
  destruct (save_header_faulty bsz (is_map s) (is_closer s) (is_file s) Hc Hs) as (f2 & [(-> & Hc2 & Hq2) | (e & j & -> & Hd & _)]).
  2:{ eexists. right. exists e. eexists. split; [done|]. cbn [is_file]. rewrite close_if_any, Hd. apply crash_image_hdr. }
  assert (Hs2 : can_seek f2 12).
  { right. pose proof (ihdr_file_length (Z.of_nat (size (is_map s))) (quiet (is_file s))) as [_ Hl].
    rewrite <- Hq2 in Hl. exact Hl. }
  destruct (save_entries_faulty bsz sh (is_map s) f2 Hc2 Hs2) as (f3 & [(-> & Hc3 & Hq3) | (e & j & -> & Hd & _)]).
  2:{ eexists. right. exists e. eexists. split; [done|]. cbn [is_file]. rewrite close_if_any, Hd, Hq2. apply crash_image_pairs. }
  rewrite Hq2 in Hq3. apply (f_equal f_data) in Hq3. change (f_data (quiet f3)) with (f_data f3) in Hq3.
  destruct (is_closer s).
  - pose proof (fclose_data f3) as Hfd. destruct (fclose_ends f3) as [(f4 & E) | (f4 & e & E)]; rewrite E in *; cbn [fst] in Hfd.
    + eexists. left. split; [done|]. cbn [is_file]. by rewrite Hfd, Hq3.
    + eexists. right. exists e. eexists. split; [done|]. cbn [is_file]. rewrite Hfd, Hq3. apply crash_image_all.
  - eexists. left. split; [done|]. done.
Qed.

(** ** Closing again after a Close that failed *)

(** The file begins like an index, with room for the rest of the header. *)
Definition has_magic (f : file) : Prop := exists rest, (6 <= length rest)%nat /\ f_data f = index_magic ++ rest.

Lemma magic_kept p bs f : has_magic f -> (6 <= p <= length (f_data f))%nat -> has_magic (fput bs (fset_pos p f)).
Proof.
  intros (rest & Hl & Hd) Hp. unfold has_magic. rewrite fput_data by (cbn; lia). cbn [fset_pos f_pos f_data].
  pose proof (splice_length p bs (f_data f)) as Hs. rewrite Hd in *.
  assert (E : exists rest', splice p bs (index_magic ++ rest) = index_magic ++ rest').
  { unfold splice. rewrite <- (app_assoc index_magic rest), (take_app_ge index_magic) by (cbn; lia).
    rewrite <- (app_assoc index_magic). eexists. reflexivity. }
  destruct E as [rest' E]. exists rest'. split; [|done]. rewrite E, !app_length in Hs. lia.
Qed.

Lemma magic_data f f' : f_data f = f_data f' -> has_magic f' -> has_magic f.
Proof. intros E (rest & Hl & Hd). exists rest. by rewrite E. Qed.

Lemma magic_seek f n : has_magic f -> (n <= 12)%nat -> can_seek f n.
Proof. intros (rest & Hl & Hd) Hn. right. rewrite Hd, app_length. change (length index_magic) with 6%nat. lia. Qed.

(** A failed Close without a closer leaves the file open and its magic in place. *)
Lemma i_close_keeps bsz sh s : f_closed (is_file s) = false -> has_magic (is_file s) -> is_closer s = false ->
  let s' := fst (i_close bsz sh s) in
  f_closed (is_file s') = false /\ has_magic (is_file s') /\ is_closer s' = false /\ is_map s' = is_map s.
Proof.
  intros Hc Hm Hn. unfold i_close, iobind, closing. rewrite Hn. cbn [close_if].
  assert (Hmq : has_magic (quiet (is_file s))) by exact Hm.
  assert (H6 : (6 <= 6 <= length (f_data (quiet (is_file s))))%nat).
  { destruct Hmq as (rest & Hl & ->). rewrite app_length. lia. }
  destruct (save_header_faulty bsz (is_map s) false (is_file s) Hc (magic_seek _ 6 Hm ltac:(lia)))
    as (f2 & [(-> & Hc2 & Hq2) | (e & j & -> & Hd & Hk)]).
  2:{ cbn. split; [by apply Hk|]. split; [|done]. eapply magic_data; [exact Hd|]. by apply magic_kept. }
  assert (Hm2 : has_magic f2).
  { assert (Hx : has_magic (quiet f2)) by (rewrite Hq2; unfold ihdr_file; by apply magic_kept). exact Hx. }
  assert (H12 : (6 <= 12 <= length (f_data (quiet f2)))%nat).
  { destruct Hm2 as (rest & Hl & Hd). cbn [quiet f_data]. rewrite Hd, app_length. change (length index_magic) with 6%nat. lia. }
  destruct (save_entries_faulty bsz sh (is_map s) f2 Hc2 (magic_seek _ 12 Hm2 ltac:(lia)))
    as (f3 & [(-> & Hc3 & Hq3) | (e & j & -> & Hd & Hk)]).
  2:{ cbn. split; [done|]. split; [|done]. eapply magic_data; [exact Hd|]. by apply magic_kept. }
  cbn. split; [done|]. split; [|done].
  assert (Hx : has_magic (quiet f3)) by (rewrite Hq3; by apply magic_kept). exact Hx.
Qed.

(** With the file closed, Close fails and changes no byte. *)
Lemma i_close_closed bsz sh s : f_closed (is_file s) = true ->
  let s' := fst (i_close bsz sh s) in
  (exists e, snd (i_close bsz sh s) = Err e) /\ f_closed (is_file s') = true /\
  f_data (is_file s') = f_data (is_file s) /\ is_closer s' = is_closer s /\ is_map s' = is_map s.
Proof.
  intros Hc. unfold i_close, iobind, closing, i_save_header, iobind, closing, iomaperr, fseek. rewrite Hc.
  cbn [fst snd]. split; [by eexists|]. cbn [is_file is_closer is_map].
  assert (Hk : forall c f, f_closed f = true -> f_closed (close_if c f) = true).
  { intros [] f H; [|done]. cbn. unfold fclose. rewrite H. by destruct (f_kind f). }
  split; [by apply Hk, Hk|]. by rewrite !close_if_any.
Qed.

Lemma i_close_map bsz sh s : is_map (fst (i_close bsz sh s)) = is_map s /\ is_closer (fst (i_close bsz sh s)) = is_closer s.
Proof. unfold i_close. by destruct (iobind _ _ (is_file s)). Qed.

(** What a Close that wrote everything leaves, whatever the file held behind its magic. *)
Lemma saved_over bsz rsz c n m sh f0 f : (0 < rsz)%nat -> has_magic f0 ->
  map_typed m -> n = Z.of_nat (size m) -> n < 2 ^ 32 ->
  usable f -> f_data f = f_data (isaved_file n (shuf sh (map_to_list m)) f0) ->
  exists f' t, i_open bsz rsz c f = (f', Ret t) /\ is_map t = m.
Proof.
  intros Hrsz (rest & Hl & Hd) Ht Hn Hs Hu Hf.
  assert (Hx : exists a b cnt rest', length cnt = 4%nat /\ rest = a :: b :: cnt ++ rest').
  { destruct rest as [|a [|b rest]]; cbn in Hl; try lia. exists a, b, (take 4 rest), (drop 4 rest).
    rewrite take_length, take_drop. split; [lia|done]. }
  destruct Hx as (a & b & cnt & rest' & Hc & ->).
  rewrite (isaved_data n _ f0 a b rest' cnt Hc Hd) in Hf.
  destruct (open_image_inv bsz rsz c f (shuf sh (map_to_list m)) (drop (16 * length (shuf sh (map_to_list m))) rest')) as (f1 & t & E & _ & _ & Hm & _); try done.
  - by apply saved_typed.
  - rewrite saved_length. lia.
  - rewrite Hf, index_image_enc, saved_length. unfold hdr0. subst n. by rewrite <- !app_assoc.
  - exists f1, t. split; [done|]. by rewrite Hm, imap_saved.
Qed.
