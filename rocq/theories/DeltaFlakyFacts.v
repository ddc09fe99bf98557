(** Proofs about Flush calls that fail. *)
From Verif Require Import Base GoIO Lock Delta SpecFile SpecLock SpecDelta GoIOFacts FileBufferFacts
  CodecFacts LockFacts DeltaFacts DeltaRecoverFacts DeltaStoreFacts DeltaSession DeltaHistFacts
  PropDeltaStore PropDeltaFault.

(** ** What a Flush that fails does to the memory *)

Lemma flush_loop_cache bsz F : forall b c,
  exists m, snd (fst (flush_loop bsz F (b, c))) = addto c (take m F).
Proof.
  induction F as [|[u d] F IH]; intros b c; [by exists 0%nat|].
  cbn [flush_loop]. unfold iobind at 1, on_fst.
  destruct (iomaperr _ _ b) as [b1 [[]|e| |]].
  - destruct (IH b1 (cache_add c u d)) as [m Hm]. exists (S m). exact Hm.
  - by exists 0%nat.
  - by exists 0%nat.
  - by exists 0%nat.
Qed.

Lemma flush_entries_mem bsz sh s s1 e : flush_entries bsz sh s = (s1, Err e) ->
  exists m, ds_cache s1 = addto (ds_cache s) (take m (visit sh (ds_new s))) /\
    ds_new s1 = ds_new s /\ ds_total s1 = ds_total s /\ ds_unflushed s1 = ds_unflushed s.
Proof.
  unfold flush_entries. set (b0 := new_bwriter _). unfold iobind at 1.
  destruct (flush_loop_cache bsz (visit sh (ds_new s)) b0 (ds_cache s)) as [m Hm]. revert Hm.
  destruct (flush_loop bsz _ _) as [[b1 c1] [[]|e1| |]]; cbn [fst snd]; intros Hm; try done.
  - unfold on_fst. destruct (iomaperr _ _ b1) as [b2 [[]|e2| |]]; try done.
    intros [= <- _]. by exists m.
  - intros [= <- _]. by exists m.
Qed.

Lemma flush_header_mem bsz s s1 o : flush_header bsz s = (s1, o) ->
  s1 = DStore (ds_cache s) (ds_new s) (ds_total s) (ds_unflushed s) (ds_file s1).
Proof.
  unfold flush_header, on_dfile. destruct (iobind _ _ (ds_file s)) as [f o']. by intros [= <- _].
Qed.

Lemma d_flush_mem bsz sh s s1 e : d_flush bsz sh s = (s1, Err e) ->
  exists m, ds_cache s1 = addto (ds_cache s) (take m (visit sh (ds_new s))) /\
    ds_new s1 = ds_new s /\ ds_total s1 = ds_total s /\ ds_unflushed s1 = ds_unflushed s.
Proof.
  unfold d_flush, iobind, iomaperr.
  destruct (flush_header bsz s) as [s2 o] eqn:Eh. apply flush_header_mem in Eh.
  destruct o as [[]|e1| |]; [| |done..].
  - destruct (flush_entries bsz sh s2) as [s3 o] eqn:Ee. destruct o as [[]|e1| |]; try done.
    intros [= <- _]. apply flush_entries_mem in Ee as (m & H1 & H2 & H3 & H4).
    rewrite Eh in H1, H2, H3, H4. cbn in H1, H2, H3, H4. by exists m.
  - intros [= <- _]. exists 0%nat. rewrite Eh. done.
Qed.

(** ** The number of users *)

Lemma user_count_dom s : d_user_count s = Z.of_nat (size (dom (ds_new s) ∪ dom (ds_cache s))).
Proof.
  unfold d_user_count.
  assert (Hu : dom (ds_new s) ∪ dom (ds_cache s) = (dom (ds_new s) ∖ dom (ds_cache s)) ∪ dom (ds_cache s)).
  { apply set_eq. intros u. rewrite !elem_of_union, elem_of_difference.
    destruct (decide (u ∈ dom (ds_cache s))); tauto. }
  rewrite Hu, size_union by set_solver.
  rewrite size_dom. rewrite Nat2Z.inj_add. f_equal.
  set (L := filter _ _).
  assert (Hd : dom (ds_new s) ∖ dom (ds_cache s) = list_to_set L).
  { apply set_eq. intros u. rewrite elem_of_difference, !elem_of_dom, elem_of_list_to_set.
    unfold L. rewrite elem_of_list_filter. rewrite <- eq_None_not_Some.
    rewrite elem_of_list_fmap. split.
    - intros [[l Hl] Hc]. split; [done|]. exists (u, l). split; [done|]. by apply elem_of_map_to_list.
    - intros (Hc & [v l] & -> & Hin). apply elem_of_map_to_list in Hin. split; [eauto|done]. }
  rewrite Hd, size_list_to_set; [done|]. apply NoDup_filter, NoDup_fst_map_to_list.
Qed.

Lemma of_user_take u m F x : x ∈ of_user u (take m F) -> x ∈ of_user u F.
Proof.
  intros H. rewrite <- (take_drop m F), of_user_app. apply elem_of_app. by left.
Qed.

Lemma of_user_take_nil u m F : of_user u F = [] -> of_user u (take m F) = [].
Proof.
  intros H. destruct (of_user u (take m F)) as [|x l] eqn:E; [done|].
  assert (Hx : x ∈ of_user u F) by (apply (of_user_take u m); rewrite E; by left).
  rewrite H in Hx. inversion Hx.
Qed.

(** ** Two storages that differ in what a failed Flush leaves behind *)

Record same_answers (s t : dstore) : Prop := {
  sa_new : ds_new s = ds_new t;
  sa_total : ds_total s = ds_total t;
  sa_unflushed : ds_unflushed s = ds_unflushed t;
  sa_find : forall u i, flast (default [] (ds_new t !! u)) i = None ->
    flast (default [] (ds_cache s !! u)) i = flast (default [] (ds_cache t !! u)) i;
  sa_users : forall u, ds_new t !! u = None -> (is_Some (ds_cache s !! u) <-> is_Some (ds_cache t !! u))
}.

Lemma same_answers_refl s f : same_answers
  (DStore (ds_cache s) (ds_new s) (ds_total s) (ds_unflushed s) f) s.
Proof. by split. Qed.

Lemma same_answers_trans s t w : same_answers s t -> same_answers t w -> same_answers s w.
Proof.
  intros A B. split.
  - by rewrite (sa_new _ _ A), (sa_new _ _ B).
  - by rewrite (sa_total _ _ A), (sa_total _ _ B).
  - by rewrite (sa_unflushed _ _ A), (sa_unflushed _ _ B).
  - intros u i H. rewrite (sa_find _ _ A); [by apply B|]. by rewrite (sa_new _ _ B).
  - intros u H. rewrite (sa_users _ _ A); [by apply B|]. by rewrite (sa_new _ _ B).
Qed.

Lemma same_answers_get s t u i : same_answers s t -> d_get s u i = d_get t u i.
Proof.
  intros A. unfold d_get. rewrite (sa_new _ _ A).
  destruct (ds_new t !! u) as [l|] eqn:El; [done|].
  pose proof (sa_find _ _ A u i) as H. rewrite El in H. specialize (H eq_refl). unfold flast in H.
  destruct (ds_cache s !! u), (ds_cache t !! u); done.
Qed.

Lemma same_answers_users s t : same_answers s t -> d_user_count s = d_user_count t.
Proof.
  intros A. rewrite !user_count_dom. do 2 f_equal. rewrite (sa_new _ _ A). apply set_eq. intros u.
  rewrite !elem_of_union, !elem_of_dom. pose proof (sa_users _ _ A u) as H.
  destruct (ds_new t !! u) as [l|].
  - split; intros _; left; eauto.
  - specialize (H eq_refl). rewrite H. done.
Qed.

Lemma failed_flush_same bsz sh s s1 e : d_flush bsz sh s = (s1, Err e) -> same_answers s1 s.
Proof.
  intros H. apply d_flush_mem in H as (m & Hc & Hn & Ht & Hu). split; try done.
  - intros u i Hf. rewrite Hc, addto_lookup.
    destruct (of_user u (take m (visit sh (ds_new s)))) as [|x l] eqn:E; [done|].
    cbn [default from_option id]. rewrite flast_app.
    assert (Hx : flast (x :: l) i = None).
    { apply flast_none. apply flast_none in Hf. intros Hin. apply Hf. apply elem_of_list_fmap in Hin as (y & -> & Hy).
      apply elem_of_list_fmap. exists y. split; [done|]. rewrite <- (of_user_visit u sh).
      apply (of_user_take u m). by rewrite E. }
    by rewrite Hx.
  - intros u Hf. rewrite Hc, addto_lookup, of_user_take_nil; [done|]. by rewrite of_user_visit, Hf.
Qed.

Lemma add_same op u i s t : same_answers s t -> same_answers (d_add op u i s) (d_add op u i t).
Proof.
  intros A. unfold d_add. rewrite (sa_new _ _ A).
  assert (Hgen : forall l' ts us fs tt ut ft, ts = tt -> us = ut ->
    (forall j, flast l' j = None -> flast (default [] (ds_new t !! u)) j = None) ->
    same_answers (DStore (ds_cache s) (<[u := l']> (ds_new t)) ts us fs)
                 (DStore (ds_cache t) (<[u := l']> (ds_new t)) tt ut ft)).
  { intros l' ts us fs tt ut ft -> -> Hl. split; cbn [ds_new ds_cache ds_total ds_unflushed]; try done.
    - intros v j Hj. apply (sa_find _ _ A). destruct (decide (u = v)) as [<- | Hne].
      + rewrite lookup_insert in Hj. by apply Hl.
      + by rewrite lookup_insert_ne in Hj.
    - intros v Hv. apply (sa_users _ _ A). destruct (decide (u = v)) as [<- | Hne].
      + by rewrite lookup_insert in Hv.
      + by rewrite lookup_insert_ne in Hv. }
  destruct (replace_delta i op (default [] (ds_new t !! u))) as [l'|] eqn:Er.
  - apply Hgen; [apply A|apply A|]. intros j. rewrite !flast_none. intros Hj Hin. apply Hj. clear Hj Hgen A.
    revert l' Er Hin. generalize (default [] (ds_new t !! u)). intros l.
    induction l as [|d l IH]; intros l' Er Hin; [done|]. cbn in Er.
    destruct (id_item d =? i) eqn:Ed.
    + injection Er as <-. apply Z.eqb_eq in Ed. cbn in *. by rewrite <- Ed.
    + destruct (replace_delta i op l) as [l2|]; [|done]. cbn in Er. injection Er as <-. cbn in *.
      apply elem_of_cons in Hin as [-> | Hin]; [by left|]. right. by apply IH.
  - apply Hgen; [by rewrite (sa_total _ _ A)|by rewrite (sa_unflushed _ _ A)|].
    intros j. rewrite !flast_none, map_app, not_elem_of_app. tauto.
Qed.

(** ** The files: equal apart from the header *)

Definition same_records (f g : file) : Prop :=
  f_closed f = false /\ take 8 (f_data f) = take 8 (f_data g) /\ drop 14 (f_data f) = drop 14 (f_data g) /\
  (14 <= length (f_data f))%nat.

Lemma hdr_file_data total f : (14 <= length (f_data f))%nat ->
  f_data (hdr_file total f) = take 8 (f_data f) ++ ([1; 1] ++ be_enc 4 (u32 total)) ++ drop 14 (f_data f).
Proof.
  intros Hl. unfold hdr_file. rewrite fput_data by (cbn; lia). cbn [fset_pos f_pos f_data].
  unfold splice. rewrite take_app_le by lia. done.
Qed.

Lemma flushed_same total F f g : same_records f g -> (14 <= length (f_data g))%nat ->
  f_data (flushed_file total F f) = f_data (flushed_file total F g).
Proof.
  intros (_ & H8 & H14 & Hl) Hlg. unfold flushed_file. rewrite !fput_data by (cbn; lia).
  cbn [fset_pos f_pos f_data]. rewrite !hdr_file_data by done. by rewrite H8, H14.
Qed.

Definition with_env (env : list fault) (f : file) : file :=
  File (f_kind f) (f_data f) (f_pos f) (f_closed f) env (f_log f).

(** Writing the header when the next write of the file goes as [x] says. *)
Lemma header_step bsz s x r : f_closed (ds_file s) = false -> (14 <= length (f_data (ds_file s)))%nat -> (6 <= bsz)%nat ->
  flush_header bsz (failing (x :: r) s) =
    let hdr := [1; 1] ++ be_enc 4 (u32 (ds_total s)) in
    let f8 := with_env r (fset_pos 8 (ds_file s)) in
    match x with
    | FOk => (DStore (ds_cache s) (ds_new s) (ds_total s) (ds_unflushed s) (fput hdr f8), Ret tt)
    | FErr k => (DStore (ds_cache s) (ds_new s) (ds_total s) (ds_unflushed s) (fput (take k hdr) f8), Err (EMsg "failed to flush buffer"))
    end.
Proof.
  intros Hcl Hlen Hb. cbn zeta.
  unfold flush_header, on_dfile, iobind at 1, ignore.
  change delta_prefix_len with (Z.of_nat 8). cbn [failing ds_file ds_total].
  set (ff := File _ _ _ _ _ _).
  assert (Hsk : fseek (Z.of_nat 8) SeekStart ff = (fset_pos 8 ff, Ret 8)).
  { unfold fseek, ff. cbn [f_closed f_kind f_data]. rewrite Hcl. change (Z.of_nat 8 <? 0) with false.
    rewrite (proj2 (Z.ltb_ge _ _)) by lia. by destruct (f_kind (ds_file s)). }
  rewrite Hsk. cbn [fst]. unfold with_bufio, iobind at 1, iomaperr at 1, d_write_header, iobind at 1 2, write_uint, write_all.
  cbn [dh_version dh_locked dh_count].
  rewrite bw_write_fits by (cbn; first [done|lia]). rewrite bw_write_fits by (cbn; first [done|lia]).
  rewrite bw_write_fits by (cbn; first [done|lia]). cbn [bw_w new_bwriter bw_buf app].
  unfold iomaperr, bw_flush. cbn [bw_err bw_buf bw_w].
  unfold fwrite. subst ff. cbn [fset_pos f_closed f_env f_kind f_data f_pos f_log next_fault]. rewrite Hcl.
  unfold next_fault. cbn [f_env]. destruct x as [|k].
  - rewrite Nat.ltb_irrefl. cbn [bw_w ds_cache ds_new ds_total ds_unflushed]. unfold with_env.
    cbn [fset_pos f_kind f_data f_pos f_closed f_env f_log]. by rewrite Hcl.
  - cbn [bw_w ds_cache ds_new ds_total ds_unflushed]. unfold with_env.
    cbn [fset_pos f_kind f_data f_pos f_closed f_env f_log]. by rewrite Hcl.
Qed.

(** ** Writing to a file of which the next write fails with nothing written *)

Definition about_to_fail (f : file) : Prop := f_closed f = false /\ exists r, f_env f = FErr 0 :: r.
Definition after_fail (f : file) : file := with_env (tail (f_env f)) f.

Lemma fwrite_fails p f : about_to_fail f -> fwrite p f = (after_fail f, (0%nat, Some EInjected)).
Proof.
  intros [Hc [r He]]. unfold fwrite. rewrite Hc. unfold next_fault. rewrite He.
  unfold after_fail, with_env. by rewrite He.
Qed.

Lemma bw_write_fails size p b : about_to_fail (bw_w b) -> bw_err b = None ->
  bw_write fwrite size p b = (BWriter (bw_w b) (bw_buf b ++ p) None, (length p, None)) \/
  exists b' n e, bw_write fwrite size p b = (b', (n, Some e)) /\ bw_w b' = after_fail (bw_w b).
Proof.
  intros Hf He. unfold bw_write. rewrite Nat.add_comm. cbn [Nat.add bw_write_loop]. rewrite He.
  destruct (length p <=? size - length (bw_buf b))%nat; [by left|]. right.
  destruct (bw_buf b) as [|x l] eqn:Eb.
  - rewrite fwrite_fails by done. cbn [bw_err]. eexists _, _, _. split; [done|]. done.
  - unfold bw_flush. cbn [bw_err bw_buf bw_w app]. rewrite fwrite_fails by done. cbn [bw_err].
    eexists _, _, _. split; [done|]. done.
Qed.

Lemma entry_fails bsz en b : about_to_fail (bw_w b) -> bw_err b = None ->
  (exists b', d_write_entry (bw_write fwrite bsz) en b = (b', Ret tt) /\ bw_w b' = bw_w b /\ bw_err b' = None /\
     bw_buf b' <> []) \/
  exists b' e, d_write_entry (bw_write fwrite bsz) en b = (b', Err e) /\ bw_w b' = after_fail (bw_w b).
Proof.
  intros Hf He. unfold d_write_entry, iobind, write_uint, write_all.
  destruct (bw_write_fails bsz (be_enc 1 (de_op en)) b Hf He) as [-> | (b' & n & e & -> & Hw)]; [|right; eauto].
  match goal with |- context [bw_write fwrite bsz (be_enc 8 (de_user en)) ?b1] =>
    destruct (bw_write_fails bsz (be_enc 8 (de_user en)) b1 Hf eq_refl) as [-> | (b' & n & e & -> & Hw)]; [|right; eauto] end.
  cbn [bw_w bw_buf].
  match goal with |- context [bw_write fwrite bsz (be_enc 8 (de_item en)) ?b1] =>
    destruct (bw_write_fails bsz (be_enc 8 (de_item en)) b1 Hf eq_refl) as [-> | (b' & n & e & -> & Hw)]; [|right; eauto] end.
  cbn [bw_w bw_buf].
  match goal with |- context [bw_write fwrite bsz (be_enc 1 (entry_checksum en)) ?b1] =>
    destruct (bw_write_fails bsz (be_enc 1 (entry_checksum en)) b1 Hf eq_refl) as [-> | (b' & n & e & -> & Hw)]; [|right; eauto] end.
  left. eexists. split; [done|]. cbn [bw_w bw_buf bw_err]. split; [done|]. split; [done|].
  intros E. apply (f_equal length) in E. rewrite !app_length, !be_enc_length in E. cbn in E. lia.
Qed.

Lemma loop_fails bsz F : forall b c, about_to_fail (bw_w b) -> bw_err b = None ->
  (exists b' c', flush_loop bsz F (b, c) = ((b', c'), Ret tt) /\ bw_w b' = bw_w b /\ bw_err b' = None /\
     (F <> [] -> bw_buf b' <> []) /\ (bw_buf b <> [] -> bw_buf b' <> [])) \/
  exists b' c' e, flush_loop bsz F (b, c) = ((b', c'), Err e) /\ bw_w b' = after_fail (bw_w b).
Proof.
  induction F as [|[u d] F IH]; intros b c Hf He.
  - left. exists b, c. done.
  - cbn [flush_loop]. unfold iobind, on_fst, iomaperr.
    destruct (entry_fails bsz (DEntry (id_op d) u (id_item d) 0) b Hf He) as
      [(b1 & -> & Hw & He1 & Hb1) | (b1 & e & -> & Hw)].
    + destruct (IH b1 (cache_add c u d)) as [(b2 & c2 & H2 & Hw2 & He2 & _ & Hb2) | (b2 & c2 & e & H2 & Hw2)].
      * by rewrite Hw.
      * done.
      * left. exists b2, c2. split; [exact H2|]. split; [congruence|]. split; [done|].
        split; intros _; by apply Hb2.
      * right. exists b2, c2, e. split; [exact H2|]. congruence.
    + right. eexists _, _, _. split; [done|]. done.
Qed.

Lemma entries_fail bsz sh s s1 e : about_to_fail (ds_file s) ->
  flush_entries bsz sh s = (s1, Err e) -> ds_file s1 = after_fail (fset_pos (length (f_data (ds_file s))) (ds_file s)).
Proof.
  intros Hf. unfold flush_entries. 
  assert (Hsk : fst (fseek 0 SeekEnd (ds_file s)) = fset_pos (length (f_data (ds_file s))) (ds_file s)).
  { destruct Hf as [Hc _]. unfold fseek. rewrite Hc, Z.add_0_r, Nat2Z.id.
    destruct (f_kind (ds_file s)); rewrite ?(proj2 (Z.ltb_ge (Z.of_nat (length (f_data (ds_file s)))) 0)), ?Z.ltb_irrefl by lia; done. }
  rewrite Hsk. set (f := fset_pos _ _). assert (Hff : about_to_fail f) by (by destruct Hf).
  unfold iobind at 1.
  destruct (loop_fails bsz (visit sh (ds_new s)) (new_bwriter f) (ds_cache s)) as
    [(b1 & c1 & -> & Hw & He & Hb & _) | (b1 & c1 & e1 & -> & Hw)]; [done|done| |].
  - unfold on_fst, iomaperr, bw_flush. rewrite He. destruct (bw_buf b1) as [|x l]; [done|].
    rewrite Hw. cbn [bw_w new_bwriter]. rewrite fwrite_fails by done. by intros [= <- _].
  - by intros [= <- _].
Qed.

(** ** Sessions in which a Flush may fail *)

(** The next write of the file fails, that is the one of the header ([k] bytes of it
    are written), or the header is written and the next write, the first one of the
    entries, fails with nothing written. *)
Definition nothing_torn (env : list fault) : Prop :=
  (exists k r, env = FErr k :: r) \/ (exists r, env = FOk :: FErr 0 :: r).

Inductive flaky (bsz : nat) : list devent -> dstore -> Prop :=
| flaky_session h s : session bsz h s -> flaky bsz h s
| flaky_call h s c s' :
    flaky bsz h s -> ev_typed (event_of c) -> d_call bsz c (failing [] s) = (s', Ret tt) ->
    flaky bsz (h ++ [event_of c]) s'
| flaky_failed h s env sh s' e :
    flaky bsz h s -> nothing_torn env -> d_flush bsz sh (failing env s) = (s', Err e) ->
    flaky bsz h s'.

Record as_session (bsz : nat) (h : list devent) (s t : dstore) : Prop := {
  as_session_of : session bsz h t;
  as_answers : same_answers s t;
  as_records : same_records (ds_file s) (ds_file t)
}.

Lemma failing_same env s t : same_answers s t -> same_answers (failing env s) t.
Proof. intros A. split; apply A. Qed.

Lemma session_len bsz h s : session bsz h s -> Z.of_nat (length h) < 2 ^ 32 ->
  (14 <= length (f_data (ds_file s)))%nat /\ f_closed (ds_file s) = false.
Proof.
  intros Hs Hl. destruct (session_inv bsz h s Hs Hl) as [E I]. split; [|apply I].
  rewrite (di_data _ _ _ I), img_length. lia.
Qed.

Lemma failed_records env bsz sh s s1 e g : nothing_torn env -> (6 <= bsz)%nat -> same_records (ds_file s) g ->
  d_flush bsz sh (failing env s) = (s1, Err e) -> same_records (ds_file s1) g.
Proof.
  intros He Hb (Hc & H8 & H14 & Hl) H.
  assert (Hgen : forall bs r, (length bs <= 6)%nat ->
    same_records (fput bs (with_env r (fset_pos 8 (ds_file s)))) g).
  { intros bs r Hbs. unfold same_records. rewrite fput_closed, fput_data by (cbn; lia). cbn [with_env fset_pos f_pos f_data f_closed].
    split; [done|]. split; [|split].
    - rewrite <- H8. apply list_eq. intros i. destruct (decide (i < 8)%nat).
      + rewrite !lookup_take, splice_lookup, decide_True by lia. by rewrite lookup_app_l by lia.
      + rewrite !lookup_take_ge by lia. done.
    - rewrite <- H14. apply list_eq. intros i. rewrite !lookup_drop, splice_lookup, !decide_False by lia. done.
    - rewrite splice_length. lia. }
  unfold d_flush, iobind, iomaperr in H. destruct He as [(k & r & ->) | (r & ->)].
  - rewrite header_step in H by done. cbn zeta iota in H. injection H as <- _. cbn [ds_file]. apply Hgen.
    rewrite take_length. cbn. lia.
  - rewrite header_step in H by done. cbn zeta iota in H.
    set (s0 := DStore _ _ _ _ _) in H.
    destruct (flush_entries bsz sh s0) as [s2 o] eqn:Ee. destruct o as [[]|e1| |]; try done. injection H as <- _.
    apply entries_fail in Ee.
    2:{ unfold s0. cbn [ds_file]. split; [by rewrite fput_closed|]. exists r. by rewrite fput_env. }
    rewrite Ee. unfold s0. cbn [ds_file].
    match goal with |- same_records (after_fail (fset_pos _ ?f)) _ => assert (Hs : same_records f g) end.
    { apply Hgen. cbn. lia. }
    exact Hs.
Qed.

Lemma call_as_session bsz h s t c s' : as_session bsz h s t -> Z.of_nat (length h) < 2 ^ 32 -> ev_typed (event_of c) ->
  d_call bsz c (failing [] s) = (s', Ret tt) -> exists t', as_session bsz (h ++ [event_of c]) s' t'.
Proof.
  intros [Hs A R] Hl Ht Hc. destruct (session_inv bsz h t Hs Hl) as [E I].
  destruct (call_inv bsz c h E t I Hl Ht) as (t' & E' & Hc' & I'). exists t'.
  assert (Hs' : session bsz (h ++ [event_of c]) t') by (by eapply session_call).
  destruct c as [op u i|sh]; cbn [d_call event_of] in *.
  - injection Hc as <-. injection Hc' as <-. split; [done| |].
    + apply add_same. by apply failing_same.
    + assert (Hfs : ds_file (d_add op u i (failing [] s)) = ds_file (failing [] s))
        by (unfold d_add; by destruct (replace_delta _ _ _)).
      assert (Hft : ds_file (d_add op u i t) = ds_file t) by (unfold d_add; by destruct (replace_delta _ _ _)).
      rewrite Hfs, Hft. exact R.
  - pose proof (visit_typed h E t sh I) as Hvt. destruct R as (Rc & R8 & R14 & Rl).
    assert (Hlt : (14 <= length (f_data (ds_file t)))%nat) by (rewrite (di_data _ _ _ I), img_length; lia).
    rewrite d_flush_ok in Hc'; [|apply I|by eapply inv_seek; [done|lia]|done]. injection Hc' as <-.
    pose proof (failing_same [] s t A) as A'.
    rewrite d_flush_ok in Hc.
    2:{ done. } 2:{ right. cbn. lia. } 2:{ by rewrite (sa_new _ _ A'). }
    injection Hc as <-. split; [done| |].
    + split; cbn [ds_new ds_total ds_unflushed ds_cache]; try done.
      * apply A'.
      * intros u i _. rewrite !addto_lookup; change (ds_new (failing [] s)) with (ds_new s); rewrite (sa_new _ _ A), of_user_visit.
        pose proof (sa_find _ _ A u i) as Hfi. change (ds_cache (failing [] s)) with (ds_cache s).
        destruct (default [] (ds_new t !! u)) as [|x l]; [by apply Hfi|].
        cbn [default from_option id]. rewrite !flast_app.
        destruct (flast (x :: l) i); [done|by apply Hfi].
      * intros u _. rewrite !addto_lookup; change (ds_new (failing [] s)) with (ds_new s); rewrite (sa_new _ _ A), of_user_visit.
        pose proof (sa_users _ _ A u) as Hus. change (ds_cache (failing [] s)) with (ds_cache s).
        pose proof (di_new _ _ _ I u) as Hnn.
        destruct (ds_new t !! u) as [[|x l]|]; cbn [default from_option id].
        -- destruct (Hnn [] eq_refl) as [? _]. done.
        -- split; eauto.
        -- by apply Hus.
    + change (same_records (flushed_file (ds_total s) (visit sh (ds_new s)) (ds_file (failing [] s)))
        (flushed_file (ds_total t) (visit sh (ds_new t)) (ds_file t))).
      rewrite (sa_total _ _ A), (sa_new _ _ A).
      assert (Hd : f_data (flushed_file (ds_total t) (visit sh (ds_new t)) (ds_file (failing [] s))) =
        f_data (flushed_file (ds_total t) (visit sh (ds_new t)) (ds_file t))) by (by apply flushed_same).
      split; [|rewrite Hd; split; [done|]; split; [done|]].
      * by apply flushed_file_healthy.
      * unfold flushed_file. rewrite fput_data by (cbn; lia). cbn [fset_pos f_pos f_data].
        rewrite splice_end, app_length, hdr_file_data, !app_length, take_length, drop_length, be_enc_length by done.
        cbn [length]. lia.
Qed.

Lemma flaky_as_session bsz h s : flaky bsz h s -> Z.of_nat (length h) < 2 ^ 32 -> (6 <= bsz)%nat ->
  exists t, as_session bsz h s t.
Proof.
  induction 1 as [h s Hs | h s c s' _ IH Ht Hc | h s env sh s' e _ IH He Hf]; intros Hl Hb.
  - exists s. split; [done|by split|]. destruct (session_len bsz h s Hs Hl) as [??]. done.
  - rewrite app_length in Hl. destruct IH as [t Ht']; [lia|done|].
    eapply call_as_session; [done|lia|done|done].
  - destruct IH as [t [Hs A R]]; [done|done|]. exists t. split; [done| |by eapply failed_records].
    eapply same_answers_trans; [by eapply failed_flush_same|]. by apply failing_same.
Qed.

Lemma close_as_session bsz h s t sh : as_session bsz h s t -> Z.of_nat (length h) < 2 ^ 32 ->
  exists s' t', d_close bsz sh (failing [] s) = (s', Ret tt) /\ d_close bsz sh t = (t', Ret tt) /\
    f_data (ds_file s') = f_data (ds_file t') /\ f_closed (ds_file s') = true.
Proof.
  intros [Hs A (Rc & R8 & R14 & Rl)] Hl. destruct (session_inv bsz h t Hs Hl) as [E I].
  pose proof (visit_typed h E t sh I) as Hvt. pose proof (failing_same [] s t A) as A'.
  assert (Hlt : (14 <= length (f_data (ds_file t)))%nat) by (rewrite (di_data _ _ _ I), img_length; lia).
  assert (Hgen : forall w, healthy (ds_file w) -> (14 <= length (f_data (ds_file w)))%nat ->
    ds_new w = ds_new t -> ds_total w = ds_total t ->
    exists w', d_close bsz sh w = (w', Ret tt) /\ f_closed (ds_file w') = true /\
      f_data (ds_file w') = splice 9 [0] (f_data (flushed_file (ds_total t) (visit sh (ds_new t)) (ds_file w)))).
  { intros w Hh Hw Hn Ht. unfold d_close, iobind, iomaperr.
    rewrite d_flush_ok; [|done|right; lia|by rewrite Hn].
    unfold on_dfile at 1. cbn [ds_file ds_cache ds_new ds_total ds_unflushed].
    rewrite Hn, Ht. set (ff := flushed_file _ _ _).
    assert (Hff : (f_pos ff <= length (f_data ff))%nat /\ (14 <= length (f_data ff))%nat).
    { unfold ff, flushed_file. rewrite fput_pos, fput_data by (cbn; lia). cbn [fset_pos f_pos f_data].
      rewrite splice_end, app_length, hdr_file_data, !app_length, take_length, drop_length, be_enc_length by done. cbn [length]. lia. }
    unfold d_write_locked. change delta_locked_offset with (Z.of_nat 9).
    rewrite write_locked_ok; [|by apply flushed_file_healthy|right; lia|right; lia].
    unfold on_dfile. cbn [ds_file].
    set (f2 := File _ _ _ _ _ _).
    assert (Hcl : fclose f2 = (File (f_kind f2) (f_data f2) (f_pos f2) true (f_env f2) (f_log f2), Ret tt)).
    { by apply fclose_healthy. }
    rewrite Hcl. eexists. split; [done|]. done. }
  destruct (Hgen (failing [] s)) as (s' & H1 & H2 & H3); [done|done|apply A'|apply A'|].
  destruct (Hgen t) as (t' & H4 & _ & H6); [apply I|done|done|done|].
  exists s', t'. split; [done|]. split; [done|]. split; [|done]. rewrite H3, H6. f_equal.
  by apply flushed_same.
Qed.
