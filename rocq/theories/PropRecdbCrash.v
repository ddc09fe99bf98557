(** Dying while an entry of a recdb file is rewritten: C137. *)
From Verif Require Import Base GoIO Lock Profile Recdb SpecFile SpecLock SpecRecdb SpecCrash RecdbSession
  GoIOFacts CodecFacts LockFacts FileBufferFacts DeltaFacts RecdbFacts PropIO PropRecdb RecdbCrashFacts.

(** * C137 *)

(** The database file [f] holds the entries [l].  An iterator on it has just returned
    entry [k], [s0], with nothing read ahead (C40: only then does SetPrevious write in
    the right place); [s] is to replace it, with the capacity of [s0]. *)
Definition ready (rsz : nat) (f : file) (l : list stored) (tail : list byte) (k : nat) (s0 s : stored)
    (it1 : iter) : Prop :=
  (0 < rsz)%nat /\ usable f /\ f_data f = recdb_image 0 l ++ tail /\ Forall is_byte (f_data f) /\
  Forall stored_typed l /\ Forall stored_fits l /\ Z.of_nat (length l) < 2 ^ 32 /\
  l !! k = Some s0 /\ stored_typed s /\ stored_fits s /\ Forall (fun b => b = 0) (st_free s) /\
  st_cap s = st_cap s0 /\
  exists it ops, r_new_iterator f = (it_file it, Ret it) /\ fst (r_ops rsz ops it) = it1 /\
    entries_read (length l) 0 ops = S k /\ br_buf (it_reader it1) = [].

(** SetPrevious does that. *)
Definition rewriting (rsz : nat) (f : file) (l : list stored) (tail : list byte) (k : nat) (s0 s : stored)
    (it1 it2 : iter) : Prop :=
  ready rsz f l tail k s0 s it1 /\ r_set_previous (entry_of s) it1 = (it2, Ret tt).

(** The file in which the first [j] bytes of entry [k] are those of [s], and the others
    still those of [s0]. *)
Definition torn_image (l : list stored) (tail : list byte) (k : nat) (s0 s : stored) (j : nat) : list byte :=
  recdb_header 1 like_type 0 (Z.of_nat (length l)) ++ concat (map stored_bytes (take k l)) ++
  (take j (stored_bytes s) ++ drop j (stored_bytes s0)) ++ concat (map stored_bytes (drop (S k) l)) ++ tail.

(** What the iterator looks like then. *)
Lemma ready_facts rsz f l tail k s0 s it1 : ready rsz f l tail k s0 s it1 ->
  let front := recdb_header 1 like_type 0 (Z.of_nat (length l)) ++ images (take k l) in
  f_data (it_file it1) = front ++ stored_bytes s0 ++ images (drop (S k) l) ++ tail /\
  length (stored_bytes s) = length (stored_bytes s0) /\
  f_pos (it_file it1) = (length front + length (stored_bytes s))%nat /\
  it_at tail l f (S k) it1 /\ l !! (S k - 1)%nat = Some s0 /\ healthy (it_file it1) /\
  (st_cap s <= Z.of_nat (f_pos (it_file it1)))%Z /\
  (f_pos (it_file it1) - Z.to_nat (st_cap s))%nat = length front.
Proof.
  intros (Hr & (Hc & He & _) & Hd & Hb & Hty & Hfi & Hn & Hk & Hts & Hfs & Hz & Hcap & it & ops & E & E1 & Hend & Hbuf).
  cbv zeta. set (hdr := recdb_header 1 like_type 0 (Z.of_nat (length l))).
  assert (Hdb : database hdr l tail f).
  { split; [done|]. split; [|done]. rewrite Hd. unfold recdb_image. by rewrite <- app_assoc. }
  destruct (new_iterator_ok 1 like_type l tail f) as (it' & E' & H & _ & _); [done|unfold is_u32; lia|by split|done|].
  rewrite E in E'. injection E' as _ <-.
  destruct (ops_at rsz _ _ _ f Hr Hdb ops 0 it H) as (it1' & E1' & H1). rewrite Hend in H1.
  rewrite E1' in E1. cbn [fst] in E1. subst it1'.
  destruct (fframe_fields _ _ (ia_frame _ _ _ _ _ H1)) as (Hdat & Hki & Hcl & Hen & Hlo).
  pose proof (ia_ok _ _ _ _ _ H1) as [[Hh Hp] _]. fold (it_file it1) in *.
  pose proof (ia_rem _ _ _ _ _ H1) as Hrem. unfold br_rem in Hrem. fold (it_file it1) in Hrem.
  rewrite Hbuf in Hrem. cbn [app] in Hrem.
  assert (Hsplit : l = take k l ++ s0 :: drop (S k) l) by (symmetry; by apply take_drop_middle).
  assert (Himg : images l = images (take k l) ++ stored_bytes s0 ++ images (drop (S k) l)).
  { rewrite Hsplit at 1. by rewrite images_app. }
  assert (Hfs0 : stored_fits s0) by (eapply Forall_lookup_1; [exact Hfi|done]).
  assert (Hlens : length (stored_bytes s) = length (stored_bytes s0)) by (unfold stored_fits in *; lia).
  assert (Hfd : f_data (it_file it1) = (hdr ++ images (take k l)) ++ stored_bytes s0 ++ images (drop (S k) l) ++ tail).
  { rewrite Hdat, Hd. unfold recdb_image. fold hdr. fold (images l). by rewrite Himg, <- !app_assoc. }
  assert (Hpos : f_pos (it_file it1) = (length (hdr ++ images (take k l)) + length (stored_bytes s))%nat).
  { apply (f_equal length) in Hrem. unfold frem in Hrem. rewrite drop_length in Hrem.
    rewrite Hfd in Hrem, Hp. rewrite !app_length in Hrem, Hp. rewrite app_length. lia. }
  split; [done|]. split; [done|]. split; [done|]. split; [done|].
  split; [by replace (S k - 1)%nat with k by lia|]. split; [done|].
  unfold stored_fits in *. split; lia.
Qed.

(** The process that dies after [j] bytes of SetPrevious leaves this file; nothing outside
    of the entry has changed. *)
Theorem C137_bytes_partial :
  forall rsz f l tail k s0 s it1 it2 j, rewriting rsz f l tail k s0 s it1 it2 ->
  crash_image (it_file it1) (it_file it2) j = torn_image l tail k s0 s j.
Proof.
  intros rsz f l tail k s0 s it1 it2 j [Hrd E2].
  destruct (ready_facts _ _ _ _ _ _ _ _ Hrd) as (Hfd & Hlens & Hpos & H1 & Hk1 & _ & Hle & Hoff).
  destruct Hrd as (_ & _ & _ & _ & _ & _ & _ & _ & Hts & Hfs & Hz & Hcap & _).
  destruct (set_previous_writes l tail f (S k) it1 s s0) as (it2' & E2' & Hf2 & _); [done|done|lia|done|done|done|].
  rewrite E2 in E2'. injection E2' as <-. rewrite padded_zeros, Hoff in Hf2 by done.
  unfold torn_image. fold (images (take k l)). fold (images (drop (S k) l)). rewrite app_assoc.
  eapply cut_over; [|exact Hfd|reflexivity|exact Hlens].
  rewrite Hf2, fput_log. done.
Qed.
Print Assumptions C137_bytes_partial.

(** Reading a file in which other bytes have taken the place of entry [k], as many and
    beginning with the same capacity. *)
Lemma replaced_reopened rsz f l tail k s0 s it1 t t' rsz' f' : ready rsz f l tail k s0 s it1 -> (0 < rsz')%nat ->
  length t = length (stored_bytes s0) -> t = be32 (st_cap s0) ++ t' -> Forall is_byte t -> usable f' ->
  f_data f' = recdb_header 1 like_type 0 (Z.of_nat (length l)) ++ images (take k l) ++ t ++ images (drop (S k) l) ++ tail ->
  exists it', r_new_iterator f' = (it_file it', Ret it') /\
  ((exists s', stored_typed s' /\ stored_fits s' /\ st_cap s' = st_cap s0 /\
      f_data f' = recdb_image 0 (<[k := s']> l) ++ tail /\
      forall ops, snd (r_ops rsz' ops it') = iterate (<[k := s']> l) 0 ops) \/
   snd (r_ops rsz' (repeat OpNext (S k)) it') = map entry_answer (take k l) ++ [AFail]).
Proof.
  intros (Hr & Hu & Hd & Hb & Hty & Hfi & Hn & Hk & Hts & Hfs & Hz & Hcap & _) Hr' Htl Htc Htb Hu' Hf'.
  assert (Hts0 : stored_typed s0) by (eapply Forall_lookup_1; [exact Hty|done]).
  assert (Hfs0 : stored_fits s0) by (eapply Forall_lookup_1; [exact Hfi|done]).
  assert (Hk1 : (k < length l)%nat) by (by eapply lookup_lt_Some).
  set (rest := images (drop (S k) l) ++ tail) in *.
  assert (Hbt : Forall is_byte (t ++ rest)).
  { rewrite Hd in Hb. unfold recdb_image in Hb. fold (images l) in Hb.
    rewrite <- (take_drop_middle l k s0 Hk) in Hb at 2. rewrite images_app in Hb.
    change (images (s0 :: drop (S k) l)) with (stored_bytes s0 ++ images (drop (S k) l)) in Hb.
    rewrite <- !app_assoc in Hb. rewrite !Forall_app in Hb. destruct Hb as (_ & _ & Hs0 & Hre & Htl').
    unfold rest. rewrite !Forall_app. done. }
  assert (Hread : forall e, (exists l' e' x, r_read_entry lread (t ++ rest, e) = ((l', e'), Err x)) \/
    (exists s', stored_typed s' /\ stored_fits s' /\ st_cap s' = st_cap s0 /\ t = stored_bytes s')).
  { intros e. eapply same_cap_read; [apply Hts0|by apply stored_cap_ge|rewrite Htl; exact Hfs0|exact Htc|done]. }
  destruct (new_iterator_front (Z.of_nat (length l)) (images (take k l) ++ t ++ rest) f') as (it' & E & H);
    [unfold is_u32; lia|split; apply Hu'|exact Hf'|].
  exists it'. split; [done|].
  destruct (Hread zero_entry) as [(l0 & e0 & x0 & Ez) | (s' & Ht' & Hfi' & Hc' & Et)].
  - right. assert (Hl : length (take k l) = k) by (rewrite take_length; lia).
    rewrite <- Hl at 1. eapply (front_nexts rsz' (Z.of_nat (length l)) f' (t ++ rest) Hr');
      [|exact H|by apply Forall_take|by apply Forall_take|rewrite Hl; cbn; lia].
    intros e. destruct (Hread e) as [?|(s' & Ht' & Hfi' & Hc' & Et)]; [done|].
    rewrite Et, read_entry_app in Ez by done. done.
  - left. exists s'. split; [done|]. split; [done|]. split; [done|].
    assert (Hf2 : f_data f' = recdb_image 0 (<[k := s']> l) ++ tail).
    { rewrite Hf', Et. unfold recdb_image. fold (images (<[k := s']> l)).
      rewrite insert_length, insert_take_drop, images_app by done.
      change (images (s' :: drop (S k) l)) with (stored_bytes s' ++ images (drop (S k) l)).
      unfold rest. by rewrite <- !app_assoc. }
    split; [done|]. intros ops.
    destruct (C39_iterator_enumerates rsz' f' (<[k := s']> l) tail) as (it2' & E' & Hops);
      [done|done|by apply Forall_insert|by apply Forall_insert|by rewrite insert_length|done|].
    rewrite E in E'. injection E' as _ <-. specialize (Hops ops).
    destruct (r_ops rsz' ops it') as [? ?]. cbn [snd]. apply Hops.
Qed.

(** The bytes of both entries. *)
Lemma ready_bytes rsz f l tail k s0 s it1 : ready rsz f l tail k s0 s it1 ->
  Forall is_byte (stored_bytes s) /\ Forall is_byte (stored_bytes s0).
Proof.
  intros (Hr & Hu & Hd & Hb & Hty & Hfi & Hn & Hk & Hts & Hfs & Hz & Hcap & _). split.
  - apply stored_bytes_bytes; [apply Hts|]. eapply Forall_impl; [exact Hz|]. intros b ->. done.
  - rewrite Hd in Hb. unfold recdb_image in Hb. rewrite <- (take_drop_middle l k s0 Hk) in Hb at 2.
    rewrite map_app, concat_app in Hb. cbn [map concat] in Hb. rewrite !Forall_app in Hb. apply Hb.
Qed.

(** Reading a torn file. *)
Lemma torn_reopened rsz f l tail k s0 s it1 j rsz' f' : ready rsz f l tail k s0 s it1 -> (0 < rsz')%nat ->
  usable f' -> f_data f' = torn_image l tail k s0 s j ->
  exists it', r_new_iterator f' = (it_file it', Ret it') /\
  ((exists s', stored_typed s' /\ stored_fits s' /\ st_cap s' = st_cap s0 /\
      f_data f' = recdb_image 0 (<[k := s']> l) ++ tail /\
      forall ops, snd (r_ops rsz' ops it') = iterate (<[k := s']> l) 0 ops) \/
   snd (r_ops rsz' (repeat OpNext (S k)) it') = map entry_answer (take k l) ++ [AFail]).
Proof.
  intros Hrd Hr' Hu' Hd'. destruct (ready_bytes _ _ _ _ _ _ _ _ Hrd) as [Hb1 Hb0].
  destruct (ready_facts _ _ _ _ _ _ _ _ Hrd) as (_ & Hlens & _).
  pose proof Hrd as (_ & _ & _ & _ & _ & _ & _ & _ & _ & _ & _ & Hcap & _).
  destruct (torn_head s s0 j Hcap) as [t' Et].
  eapply replaced_reopened; [exact Hrd|done|by apply torn_length|exact Et| |done|exact Hd'].
  apply Forall_app. split; [by apply Forall_take|by apply Forall_drop].
Qed.

(** The next process opens the file.  Either it finds the entries of [l] with, in the place
    of entry [k], some entry of the same capacity, whatever it calls; or it is given the
    entries in front of [k], and then an error. *)
Theorem C137_after_partial :
  forall rsz f l tail k s0 s it1 it2 j rsz' f', rewriting rsz f l tail k s0 s it1 it2 -> (0 < rsz')%nat ->
  usable f' -> f_data f' = crash_image (it_file it1) (it_file it2) j ->
  exists it', r_new_iterator f' = (it_file it', Ret it') /\
  ((exists s', stored_typed s' /\ stored_fits s' /\ st_cap s' = st_cap s0 /\
      f_data f' = recdb_image 0 (<[k := s']> l) ++ tail /\
      forall ops, snd (r_ops rsz' ops it') = iterate (<[k := s']> l) 0 ops) \/
   snd (r_ops rsz' (repeat OpNext (S k)) it') = map entry_answer (take k l) ++ [AFail]).
Proof.
  intros rsz f l tail k s0 s it1 it2 j rsz' f' Hrw Hr' Hu' Hd'.
  rewrite (C137_bytes_partial _ _ _ _ _ _ _ _ _ _ Hrw) in Hd'. destruct Hrw as [Hrd _].
  eapply torn_reopened; done.
Qed.
Print Assumptions C137_after_partial.

(** If no more than the deletion mark is changed, the file is the old one or the new one. *)
Theorem C137_deleted_partial :
  forall rsz f l tail k s0 s it1 it2 j, rewriting rsz f l tail k s0 s it1 it2 ->
  st_user s = st_user s0 -> st_likes s = st_likes s0 -> st_dislikes s = st_dislikes s0 -> st_free s = st_free s0 ->
  crash_image (it_file it1) (it_file it2) j = recdb_image 0 l ++ tail \/
  crash_image (it_file it1) (it_file it2) j = recdb_image 0 (<[k := s]> l) ++ tail.
Proof.
  intros rsz f l tail k s0 s it1 it2 j Hrw Hu Hl Hdl Hfr.
  rewrite (C137_bytes_partial _ _ _ _ _ _ _ _ _ _ Hrw).
  destruct Hrw as [(_ & _ & _ & _ & _ & _ & _ & Hk & _ & _ & _ & Hcap & _) _].
  assert (Hk1 : (k < length l)%nat) by (by eapply lookup_lt_Some).
  assert (Ht : take j (stored_bytes s) ++ drop j (stored_bytes s0) = stored_bytes s0 \/
    take j (stored_bytes s) ++ drop j (stored_bytes s0) = stored_bytes s).
  { unfold stored_bytes, stored_data. rewrite Hcap, Hu, Hl, Hdl, Hfr.
    generalize ((be64 (st_user s0) ++ counted (st_likes s0) ++ counted (st_dislikes s0)) ++ st_free s0). intros r.
    pose proof (stored_cap_bytes s0) as H4. destruct (decide (j <= 4)%nat).
    - left. rewrite (take_app_le (be32 _)), (drop_app_le (be32 _)) by lia. by rewrite app_assoc, take_drop.
    - right. rewrite (take_app_ge (be32 _)), (drop_app_ge (be32 _)) by lia. rewrite <- app_assoc, H4. f_equal.
      destruct (j - 4)%nat as [|i] eqn:Ei; [lia|]. cbn [app take drop]. by rewrite take_drop. }
  unfold torn_image. destruct Ht as [-> | ->]; [left|right].
  - unfold recdb_image. rewrite <- !app_assoc. f_equal.
    replace (concat (map stored_bytes l)) with (concat (map stored_bytes (take k l ++ s0 :: drop (S k) l)))
      by (by rewrite take_drop_middle).
    rewrite map_app, concat_app. cbn [map concat]. by rewrite <- !app_assoc.
  - unfold recdb_image. rewrite insert_length, insert_take_drop, map_app, concat_app by done. cbn [map concat].
    by rewrite <- !app_assoc.
Qed.
Print Assumptions C137_deleted_partial.

(** The single entry [ex_b] is replaced by [ex_b'], another user with another dislike. *)
Definition ex_f1 : file := open_file KOs (recdb_image 0 [ex_b]).
Definition ex_at (rsz : nat) (f : file) (n : Z) : iter :=
  fst (r_ops rsz [OpNext] (Iter (RHeader 1 like_type 0 n) (new_breader (fset_pos 19 f)) 0 zero_entry)).

Lemma ex_rewriting : rewriting 4096 ex_f1 [ex_b] [] 0 ex_b ex_b' (ex_at 4096 ex_f1 1)
  (fst (r_set_previous (entry_of ex_b') (ex_at 4096 ex_f1 1))).
Proof.
  destruct ex_b_ok as [H1 H2]. destruct ex_b'_ok as [H3 H4].
  split; [|by vm_compute].
  split; [lia|]. split; [split; [done|split; [done|by left]]|]. split; [by rewrite app_nil_r|].
  split; [by repeat constructor|]. split; [by constructor|]. split; [by constructor|]. split; [done|].
  split; [done|]. split; [done|]. split; [done|]. split; [constructor|]. split; [done|].
  exists (Iter (RHeader 1 like_type 0 1) (new_breader (fset_pos 19 ex_f1)) 0 zero_entry), [OpNext].
  split; [by vm_compute|]. split; [done|]. split; [done|]. by vm_compute.
Qed.

(** It is not so that the next process finds the old profile or the new one: after 13 bytes
    it is told that the new user has the dislikes of the old one, and sees no error. *)
Theorem C137_old_or_new_refuted :
  ~ (forall rsz f l tail k s0 s it1 it2 j rsz' f' it', rewriting rsz f l tail k s0 s it1 it2 -> (0 < rsz')%nat ->
     usable f' -> f_data f' = crash_image (it_file it1) (it_file it2) j ->
     r_new_iterator f' = (it_file it', Ret it') ->
     (forall ops, snd (r_ops rsz' ops it') = iterate l 0 ops) \/
     (forall ops, snd (r_ops rsz' ops it') = iterate (<[k := s]> l) 0 ops) \/
     snd (r_ops rsz' (repeat OpNext (S k)) it') = map entry_answer (take k l) ++ [AFail]).
Proof.
  intros H. specialize (H _ _ _ _ _ _ _ _ _ 13%nat 4096%nat
    (open_file KOs (recdb_image 0 [Stored 29 0 9 [] [4] []]))
    (Iter (RHeader 1 like_type 0 1)
       (new_breader (fset_pos 19 (open_file KOs (recdb_image 0 [Stored 29 0 9 [] [4] []])))) 0 zero_entry) ex_rewriting).
  destruct H as [H|[H|H]]; [lia|split; [done|split; [done|by left]]|by vm_compute|by vm_compute| | |].
  - specialize (H [OpNext]). vm_compute in H. discriminate.
  - specialize (H [OpNext]). vm_compute in H. discriminate.
  - vm_compute in H. discriminate.
Qed.
Print Assumptions C137_old_or_new_refuted.

(** [ex_b] is replaced by the same user with a like instead of a dislike, while a second
    entry lies behind it. *)
Definition ex_like : stored := Stored 29 1 8 [1] [] [].
Definition ex_f2 : file := open_file KOs (recdb_image 0 [ex_b; ex_b']).

Lemma ex_like_ok : stored_typed ex_like /\ stored_fits ex_like.
Proof.
  split; [|done]. repeat (split; [done|]). split; [|split; [by constructor|done]].
  by repeat (apply Forall_cons; split; [done|]).
Qed.

Lemma ex_rewriting_first : rewriting 29 ex_f2 [ex_b; ex_b'] [] 0 ex_b ex_like (ex_at 29 ex_f2 2)
  (fst (r_set_previous (entry_of ex_like) (ex_at 29 ex_f2 2))).
Proof.
  destruct ex_b_ok as [H1 H2]. destruct ex_b'_ok as [H3 H4]. destruct ex_like_ok as [H5 H6].
  split; [|by vm_compute].
  split; [lia|]. split; [split; [done|split; [done|by left]]|]. split; [by rewrite app_nil_r|].
  split; [by repeat constructor|]. split; [by apply Forall_cons; split; [|apply Forall_cons; split]|].
  split; [by apply Forall_cons; split; [|apply Forall_cons; split]|]. split; [done|].
  split; [done|]. split; [done|]. split; [done|]. split; [constructor|]. split; [done|].
  exists (Iter (RHeader 1 like_type 0 2) (new_breader (fset_pos 19 ex_f2)) 0 zero_entry), [OpNext].
  split; [by vm_compute|]. split; [done|]. split; [done|]. by vm_compute.
Qed.

(** The file left after 17 bytes; an iterator on it, the iterator after a Next, and after
    a Next and a Rewind. *)
Definition ex_torn : file := open_file KOs (torn_image [ex_b; ex_b'] [] 0 ex_b ex_like 17).
Definition ex_it (pos : nat) (e : rentry) : iter :=
  Iter (RHeader 1 like_type 0 2) (new_breader (fset_pos pos ex_torn)) 0 e.
Definition ex_read : rentry := REntry 29 1 DNil.
Definition ex_states : list iter := [ex_it 19 zero_entry; ex_it 77 ex_read; ex_it 19 ex_read].

Lemma ex_states_closed ops : forall it, In it ex_states ->
  forall s, ~ In (entry_answer s) (snd (r_ops 4096 ops it)).
Proof.
  induction ops as [|op ops IH]; intros it Hi s; [intros []|]. cbn [r_ops].
  assert (Hs : In (fst (r_op 4096 op it)) ex_states /\ forall s, snd (r_op 4096 op it) <> entry_answer s).
  { destruct Hi as [<-|[<-|[<-|[]]]]; destruct op.
    1,4,7: split; [vm_compute; tauto|discriminate].
    all: split; [vm_compute; tauto|intros s'; vm_compute; discriminate]. }
  destruct (r_op 4096 op it) as [it' a]. cbn [fst snd] in Hs. destruct Hs as [Hi' Ha].
  specialize (IH it' Hi' s). destruct (r_ops 4096 ops it') as [it'' la]. cbn [snd] in *.
  intros [?|?]; [by apply (Ha s)|done].
Qed.

(** Nor is it so that the next process can still get at the entries that were not
    rewritten: after 17 bytes, the second entry is not returned, whatever is called. *)
Theorem C137_others_refuted :
  ~ (forall rsz f l tail k s0 s it1 it2 j rsz' f' it', rewriting rsz f l tail k s0 s it1 it2 -> (0 < rsz')%nat ->
     usable f' -> f_data f' = crash_image (it_file it1) (it_file it2) j ->
     r_new_iterator f' = (it_file it', Ret it') ->
     forall i si, i <> k -> l !! i = Some si ->
     exists ops, In (entry_answer si) (snd (r_ops rsz' ops it'))).
Proof.
  intros H. specialize (H _ _ _ _ _ _ _ _ _ 17%nat 4096%nat ex_torn (ex_it 19 zero_entry) ex_rewriting_first).
  destruct (H ltac:(lia)) with (i := 1%nat) (si := ex_b') as [ops Hin];
    [split; [done|split; [done|by left]]|by vm_compute|by vm_compute|done|done|].
  eapply ex_states_closed; [|exact Hin]. by left.
Qed.
Print Assumptions C137_others_refuted.

(** [ex_rewriting] and [ex_rewriting_first] meet the hypotheses; changing a mark alone does
    too, and then the answers after 4 and after 5 bytes are the old and the new entry. *)
Definition ex_unmarked : stored := Stored 29 0 8 [] [4] [].

Example C137_case : rewriting 4096 ex_f1 [ex_b] [] 0 ex_b ex_unmarked (ex_at 4096 ex_f1 1)
    (fst (r_set_previous (entry_of ex_unmarked) (ex_at 4096 ex_f1 1))) /\
  crash_image (it_file (ex_at 4096 ex_f1 1))
    (it_file (fst (r_set_previous (entry_of ex_unmarked) (ex_at 4096 ex_f1 1)))) 4 = recdb_image 0 [ex_b] /\
  crash_image (it_file (ex_at 4096 ex_f1 1))
    (it_file (fst (r_set_previous (entry_of ex_unmarked) (ex_at 4096 ex_f1 1)))) 5 = recdb_image 0 [ex_unmarked].
Proof.
  split; [|split; by vm_compute].
  destruct ex_b_ok as [H1 H2].
  assert (H3 : stored_typed ex_unmarked).
  { repeat (split; [done|]). split; [by constructor|]. split; [|done].
    by repeat (apply Forall_cons; split; [done|]). }
  split; [|by vm_compute].
  split; [lia|]. split; [split; [done|split; [done|by left]]|]. split; [by rewrite app_nil_r|].
  split; [by repeat constructor|]. split; [by constructor|]. split; [by constructor|]. split; [done|].
  split; [done|]. split; [done|]. split; [done|]. split; [constructor|]. split; [done|].
  exists (Iter (RHeader 1 like_type 0 1) (new_breader (fset_pos 19 ex_f1)) 0 zero_entry), [OpNext].
  split; [by vm_compute|]. split; [done|]. split; [done|]. by vm_compute.
Qed.
