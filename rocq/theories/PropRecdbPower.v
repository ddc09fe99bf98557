(** Power failing after an entry of a recdb file was rewritten: C139. *)
From Verif Require Import Base GoIO Lock Profile Recdb SpecFile SpecLock SpecRecdb SpecCrash SpecPower RecdbSession
  GoIOFacts CodecFacts LockFacts FileBufferFacts DeltaFacts RecdbFacts RecdbCrashFacts RecdbRetryFacts RecdbPowerFacts
  PropIO PropRecdb PropRecdbCrash PropRecdbRetry.

(** * C139 *)

(** What the disk has of the file if the power fails after SetPrevious returned. *)
Definition unpowered (B : nat) (blocks : nat -> nat) (len : nat) (it1 it2 : iter) : list byte :=
  power_image B blocks len (f_data (it_file it1)) (written_by (it_file it1) (it_file it2)).

(** The writes of SetPrevious. *)
Lemma rewriting_writes rsz f l tail k s0 s it1 it2 : rewriting rsz f l tail k s0 s it1 it2 ->
  let front := recdb_header 1 like_type 0 (Z.of_nat (length l)) ++ images (take k l) in
  f_data (it_file it1) = front ++ stored_bytes s0 ++ images (drop (S k) l) ++ tail /\
  length (stored_bytes s) = length (stored_bytes s0) /\
  written_by (it_file it1) (it_file it2) = wsets (length front) (stored_bytes s).
Proof.
  intros [Hrd E2]. cbv zeta. set (front := recdb_header 1 like_type 0 (Z.of_nat (length l)) ++ images (take k l)).
  destruct (ready_facts _ _ _ _ _ _ _ _ Hrd) as (Hfd & Hlens & Hpos & H1 & Hk1 & _ & Hle & Hoff). fold front in Hfd, Hoff.
  destruct Hrd as (_ & _ & _ & _ & _ & _ & _ & _ & Hts & Hfs & Hz & Hcap & _).
  destruct (set_previous_writes l tail f (S k) it1 s s0) as (it2' & E2' & Hf2 & _); [done|done|lia|done|done|done|].
  rewrite E2 in E2'. injection E2' as <-. rewrite padded_zeros, Hoff in Hf2 by done.
  split; [done|]. split; [done|].
  unfold written_by. rewrite Hf2, fput_log. by rewrite drop_app_alt.
Qed.

(** Nothing outside of the entry has changed, and each byte of the entry is the old or the
    new one. *)
Theorem C139_bytes_partial :
  forall rsz f l tail k s0 s it1 it2 B blocks len, rewriting rsz f l tail k s0 s it1 it2 ->
  exists m, length m = length (stored_bytes s0) /\
    (forall i, m !! i = stored_bytes s !! i \/ m !! i = stored_bytes s0 !! i) /\
    unpowered B blocks len it1 it2 =
      recdb_header 1 like_type 0 (Z.of_nat (length l)) ++ concat (map stored_bytes (take k l)) ++
      m ++ concat (map stored_bytes (drop (S k) l)) ++ tail.
Proof.
  intros rsz f l tail k s0 s it1 it2 B blocks len Hrw.
  destruct (rewriting_writes _ _ _ _ _ _ _ _ _ Hrw) as (Hfd & Hlens & Hlog).
  unfold unpowered. rewrite Hfd, Hlog.
  destruct (power_over B blocks len (recdb_header 1 like_type 0 (Z.of_nat (length l)) ++ images (take k l))
    (stored_bytes s0) (images (drop (S k) l) ++ tail) (stored_bytes s) Hlens) as (m & [Hm1 Hm2] & ->).
  exists m. split; [done|]. split; [done|]. by rewrite <- app_assoc.
Qed.
Print Assumptions C139_bytes_partial.

(** The next process opens the file.  Either it finds the entries of [l] with, in the place
    of entry [k], some entry of the same capacity, whatever it calls; or it is given the
    entries in front of [k], and then an error. *)
Theorem C139_after_partial :
  forall rsz f l tail k s0 s it1 it2 B blocks len rsz' f', rewriting rsz f l tail k s0 s it1 it2 -> (0 < rsz')%nat ->
  usable f' -> f_data f' = unpowered B blocks len it1 it2 ->
  exists it', r_new_iterator f' = (it_file it', Ret it') /\
  ((exists s', stored_typed s' /\ stored_fits s' /\ st_cap s' = st_cap s0 /\
      f_data f' = recdb_image 0 (<[k := s']> l) ++ tail /\
      forall ops, snd (r_ops rsz' ops it') = iterate (<[k := s']> l) 0 ops) \/
   snd (r_ops rsz' (repeat OpNext (S k)) it') = map entry_answer (take k l) ++ [AFail]).
Proof.
  intros rsz f l tail k s0 s it1 it2 B blocks len rsz' f' Hrw Hr' Hu' Hd'.
  destruct (C139_bytes_partial _ _ _ _ _ _ _ _ _ B blocks len Hrw) as (m & Hm1 & Hm2 & Hm3).
  rewrite Hm3 in Hd'. destruct Hrw as [Hrd _].
  destruct (ready_bytes _ _ _ _ _ _ _ _ Hrd) as [Hb1 Hb0].
  pose proof Hrd as (_ & _ & _ & _ & _ & _ & _ & _ & _ & _ & _ & Hcap & _).
  assert (Hm : mixed (stored_bytes s) (stored_bytes s0) m) by by split.
  destruct (mixed_head s s0 m Hm Hcap) as [t' Et].
  eapply replaced_reopened; [exact Hrd|done|exact Hm1|exact Et| |done|exact Hd'].
  by eapply mixed_Forall.
Qed.
Print Assumptions C139_after_partial.

(** If the entry does not cross from one block into another, and the block is on the disk
    as it was before or after the call, then so is the file. *)
Theorem C139_one_block_partial :
  forall rsz f l tail k s0 s it1 it2 B blocks len, rewriting rsz f l tail k s0 s it1 it2 -> (0 < B)%nat ->
  let begin := length (recdb_image 0 (take k l)) in
  (begin / B = (begin + length (stored_bytes s0) - 1) / B)%nat ->
  (blocks (begin / B) = 0 -> unpowered B blocks len it1 it2 = recdb_image 0 l ++ tail)%nat /\
  (length (stored_bytes s0) <= blocks (begin / B) ->
     unpowered B blocks len it1 it2 = recdb_image 0 (<[k := s]> l) ++ tail)%nat /\
  unpowered B blocks len it1 it2 = torn_image l tail k s0 s (blocks (begin / B)%nat).
Proof.
  intros rsz f l tail k s0 s it1 it2 B blocks len Hrw HB. cbv zeta. intros Hblk.
  destruct (rewriting_writes _ _ _ _ _ _ _ _ _ Hrw) as (Hfd & Hlens & Hlog).
  set (front := recdb_header 1 like_type 0 (Z.of_nat (length l)) ++ images (take k l)) in *.
  assert (Hfront : length (recdb_image 0 (take k l)) = length front).
  { unfold front, recdb_image. by rewrite !app_length. }
  rewrite Hfront in *.
  assert (H : unpowered B blocks len it1 it2 = torn_image l tail k s0 s (blocks (length front / B)%nat)).
  { unfold unpowered. rewrite Hfd, Hlog, power_one_block by done. unfold torn_image, front. by rewrite <- app_assoc. }
  destruct Hrw as [(_ & _ & _ & _ & _ & _ & _ & Hk & _) _].
  split; [|split; [|done]]; rewrite H.
  - intros ->. by apply torn_none.
  - intros Hle. apply torn_all; [done|done|lia].
Qed.
Print Assumptions C139_one_block_partial.

(** [ex_b], behind an entry of 470 bytes, so that it reaches over byte 512, is replaced
    by [ex_b']. *)
Definition ex_wide : stored := Stored 470 1 7 [] [] (repeat 0 449).
Definition ex_f3 : file := open_file KOs (recdb_image 0 [ex_wide; ex_b]).
Definition ex_i3 : iter := Iter (RHeader 1 like_type 0 2) (new_breader (fset_pos 19 ex_f3)) 0 zero_entry.
Definition ex_at3 : iter := fst (r_ops 4096 [OpNext; OpNext] ex_i3).
Definition ex_done3 : iter := fst (r_set_previous (entry_of ex_b') ex_at3).

Lemma ex_wide_ok : stored_typed ex_wide /\ stored_fits ex_wide.
Proof.
  split; [|by vm_compute]. repeat (split; [done|]). split; [by constructor|]. split; [by constructor|done].
Qed.

Lemma ex_rewriting_wide : rewriting 4096 ex_f3 [ex_wide; ex_b] [] 1 ex_b ex_b' ex_at3 ex_done3.
Proof.
  destruct ex_b_ok as [H1 H2]. destruct ex_b'_ok as [H3 H4]. destruct ex_wide_ok as [H5 H6].
  split; [|by vm_compute].
  split; [lia|]. split; [split; [done|split; [done|by left]]|]. split; [by rewrite app_nil_r|].
  split; [by repeat constructor|]. split; [by apply Forall_cons; split; [|apply Forall_cons; split]|].
  split; [by apply Forall_cons; split; [|apply Forall_cons; split]|]. split; [done|].
  split; [done|]. split; [done|]. split; [done|]. split; [constructor|]. split; [done|].
  exists ex_i3, [OpNext; OpNext].
  split; [by vm_compute|]. split; [unfold ex_at3; reflexivity|]. split; [done|]. by vm_compute.
Qed.

(** The part of it in front of that byte is new. *)
Definition ex_g3 : file := open_file KOs (recdb_image 0 [ex_wide; Stored 29 0 9 [] [4] []]).

Lemma ex_g3_read :
  snd (r_ops 4096 [OpNext; OpNext] (Iter (RHeader 1 like_type 0 2) (new_breader (fset_pos 19 ex_g3)) 0 zero_entry)) =
  [AEntry 470 1 7 [] []; AEntry 29 0 9 [] [4]].
Proof. by vm_compute. Qed.

Lemma ex_g3_image :
  f_data ex_g3 = unpowered 512 (fun n => if (n =? 0)%nat then 29%nat else 0%nat) 29 ex_at3 ex_done3.
Proof. by vm_compute. Qed.

(** It is not so that after SetPrevious has succeeded the next process finds the old profile,
    the new one or an error, even when each block of 512 bytes is wholly old or wholly new. *)
Theorem C139_old_or_new_refuted :
  ~ (forall rsz f l tail k s0 s it1 it2 blocks len rsz' f' it', rewriting rsz f l tail k s0 s it1 it2 -> (0 < rsz')%nat ->
     (forall n, blocks n = 0%nat \/ blocks n = length (written_by (it_file it1) (it_file it2))) ->
     usable f' -> f_data f' = unpowered 512 blocks len it1 it2 ->
     r_new_iterator f' = (it_file it', Ret it') ->
     (forall ops, snd (r_ops rsz' ops it') = iterate l 0 ops) \/
     (forall ops, snd (r_ops rsz' ops it') = iterate (<[k := s]> l) 0 ops) \/
     snd (r_ops rsz' (repeat OpNext (S k)) it') = map entry_answer (take k l) ++ [AFail]).
Proof.
  intros H.
  specialize (H _ _ _ _ _ _ _ _ _ (fun n => if (n =? 0)%nat then 29%nat else 0%nat) 29%nat 4096%nat ex_g3
    (Iter (RHeader 1 like_type 0 2) (new_breader (fset_pos 19 ex_g3)) 0 zero_entry) ex_rewriting_wide).
  destruct H as [H|[H|H]];
    [lia|intros n; destruct (n =? 0)%nat; [right; by vm_compute|by left]|split; [done|split; [done|by left]]
    |exact ex_g3_image|by vm_compute| | |].
  - specialize (H [OpNext; OpNext]). rewrite ex_g3_read in H. discriminate H.
  - specialize (H [OpNext; OpNext]). rewrite ex_g3_read in H. discriminate H.
  - change (repeat OpNext 2) with [OpNext; OpNext] in H. rewrite ex_g3_read in H. discriminate H.
Qed.
Print Assumptions C139_old_or_new_refuted.

(** That file is what the disk then has; with blocks of 4096 bytes the same entry meets the
    hypotheses of C139_one_block_partial. *)
Example C139_case : rewriting 4096 ex_f3 [ex_wide; ex_b] [] 1 ex_b ex_b' ex_at3 ex_done3 /\
  length (recdb_image 0 (take 1 [ex_wide; ex_b])) = 489%nat /\ length (stored_bytes ex_b) = 29%nat /\
  (489 / 4096 = (489 + 29 - 1) / 4096)%nat /\
  unpowered 512 (fun n => if (n =? 0)%nat then 29%nat else 0%nat) 29 ex_at3 ex_done3 = f_data ex_g3.
Proof. split; [exact ex_rewriting_wide|]. split; [by vm_compute|]. split; [by vm_compute|].
  split; [by vm_compute|]. symmetry. exact ex_g3_image. Qed.
