(** Proofs about repeated calls of SetPrevious and calls it refuses. *)
From Verif Require Import Base GoIO Lock Profile Recdb SpecFile SpecLock SpecRecdb RecdbSession
  GoIOFacts CodecFacts LockFacts FileBufferFacts DeltaFacts RecdbFacts.

(** SetPrevious with nothing read ahead replaces the entry, and leaves the iterator where it
    was. *)
Lemma set_previous_step hdr l tail f k it s s0 : database hdr l tail f -> it_at tail l f (S k) it ->
  br_buf (it_reader it) = [] -> l !! k = Some s0 ->
  stored_typed s -> stored_fits s -> Forall (fun b => b = 0%Z) (st_free s) -> st_cap s = st_cap s0 ->
  exists it', r_set_previous (entry_of s) it = (it', Ret tt) /\
    database hdr (<[k := s]> l) tail (it_file it') /\ it_at tail (<[k := s]> l) (it_file it') (S k) it' /\
    br_buf (it_reader it') = [].
Proof.
  intros (Hhl & Hd & Hty & Hfi) H1 Hbuf Hk Hts Hfs Hz Hcap.
  destruct (fframe_fields _ _ (ia_frame _ _ _ _ _ H1)) as (Hdat & Hki & Hcl & Hen & Hlo).
  pose proof (ia_ok _ _ _ _ _ H1) as [[Hh Hp] _]. fold (it_file it) in *.
  pose proof (ia_rem _ _ _ _ _ H1) as Hrem. unfold br_rem in Hrem. fold (it_file it) in Hrem.
  rewrite Hbuf in Hrem. cbn [app] in Hrem.
  assert (Hsplit : l = take k l ++ s0 :: drop (S k) l) by (symmetry; by apply take_drop_middle).
  assert (Himg : images l = images (take k l) ++ stored_bytes s0 ++ images (drop (S k) l)).
  { rewrite Hsplit at 1. by rewrite images_app. }
  assert (Hfs0 : stored_fits s0) by (eapply Forall_lookup_1; [exact Hfi|done]).
  assert (Hlens : length (stored_bytes s) = length (stored_bytes s0)) by (unfold stored_fits in *; lia).
  set (begin := length (hdr ++ images (take k l))).
  assert (Hfd : f_data f = (hdr ++ images (take k l)) ++ stored_bytes s0 ++ images (drop (S k) l) ++ tail).
  { by rewrite Hd, Himg, <- !app_assoc. }
  assert (Hlen : length (f_data f) =
    (begin + length (stored_bytes s) + length (images (drop (S k) l) ++ tail))%nat).
  { rewrite Hfd, app_length. fold begin. rewrite app_length. lia. }
  assert (Hpos : f_pos (it_file it) = (begin + length (stored_bytes s))%nat).
  { apply (f_equal length) in Hrem. unfold frem in Hrem. rewrite drop_length in Hrem.
    rewrite Hdat in Hrem, Hp. lia. }
  assert (Hk1 : (k < length l)%nat) by (by eapply lookup_lt_Some).
  destruct (set_previous_writes l tail f (S k) it s s0) as (it2 & E2 & Hf2 & Hb2 & Hi2 & Hh2 & He2); [done| |lia|done|done| |].
  { by replace (S k - 1)%nat with k by lia. }
  { rewrite Hpos. unfold stored_fits in *. lia. }
  rewrite padded_zeros in Hf2 by done.
  replace (f_pos (it_file it) - Z.to_nat (st_cap s))%nat with begin in Hf2
    by (rewrite Hpos; unfold stored_fits in *; lia).
  assert (Hdat2 : f_data (it_file it2) =
    take begin (f_data f) ++ stored_bytes s ++ drop (begin + length (stored_bytes s)) (f_data f)).
  { rewrite Hdat in Hp. rewrite Hf2, fput_data by (cbn [fset_pos f_pos f_data]; rewrite Hdat; lia).
    cbn [fset_pos f_pos f_data]. rewrite Hdat.
    unfold splice. replace (begin - length (f_data f))%nat with 0%nat by lia.
    by rewrite app_nil_r. }
  assert (Hpos2 : f_pos (it_file it2) = (begin + length (stored_bytes s))%nat).
  { rewrite Hf2, fput_pos. cbn [fset_pos f_pos]. done. }
  exists it2. split; [done|].
  assert (Himg' : images (<[k := s]> l) = images (take k l) ++ stored_bytes s ++ images (drop (S k) l)).
  { rewrite insert_take_drop by done. by rewrite images_app. }
  assert (Hfd2 : f_data (it_file it2) = hdr ++ images (<[k := s]> l) ++ tail).
  { rewrite Hdat2, Himg', Hfd. unfold begin. rewrite take_app, Hlens. rewrite <- drop_drop, drop_app, drop_app.
    by rewrite <- !app_assoc. }
  split; [|split].
  - split; [done|]. split; [done|]. split; by apply Forall_insert.
  - split.
    + rewrite Hb2. split; [|done]. cbn [new_breader br_r]. split.
      * rewrite Hf2. by apply fput_healthy, fset_pos_healthy.
      * rewrite Hpos2, Hfd2, Himg', !app_length. unfold begin. rewrite app_length. lia.
    + rewrite Hb2. unfold br_rem. cbn [new_breader br_buf br_r]. unfold frem. rewrite Hpos2, Hfd2, Himg'.
      rewrite drop_insert_gt by lia. unfold begin. rewrite <- !app_assoc, app_assoc.
      rewrite <- drop_drop, drop_app, drop_app. done.
    + done.
    + done.
    + rewrite insert_length. lia.
    + by rewrite insert_length, Hh2, (ia_count _ _ _ _ _ H1).
    + intros _. exists s. split.
      * replace (S k - 1)%nat with k by lia. by apply list_lookup_insert.
      * rewrite He2. destruct (ia_entry _ _ _ _ _ H1) as (s1 & Hs1 & ->); [lia|].
        replace (S k - 1)%nat with k in Hs1 by lia. rewrite Hk in Hs1. injection Hs1 as <-. done.
  - by rewrite Hb2.
Qed.

(** The calls that are refused leave everything as it was. *)
Lemma set_previous_start e it : it_index it = 0%Z -> exists x, r_set_previous e it = (it, Err x).
Proof. intros Hi. unfold r_set_previous. rewrite Hi. by eexists. Qed.

Lemma set_previous_other e it : re_cap (it_entry it) <> re_cap e -> exists x, r_set_previous e it = (it, Err x).
Proof.
  intros Hc. unfold r_set_previous. destruct (it_index it =? 0)%Z; [by eexists|].
  rewrite (proj2 (Z.eqb_neq _ _)) by done. by eexists.
Qed.
