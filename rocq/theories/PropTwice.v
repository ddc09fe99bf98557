(** Property C108: starting a namespace that is running. *)
From Verif Require Import Base GoIO Lock Delta Index Naming Json Service LikeStart
  SpecFile SpecLock SpecDelta SpecIndex DeltaSession DeltaShare IndexSession GoIOFacts DeltaStoreFacts
  DeltaHistFacts DeltaCrashFacts DeltaShareFacts IndexFacts StartFacts PropStart.

(** The namespace [x] is running: its worker has the delta storage [s], which has been
    used as [h] says, and the index [i]; the disk contains
    what they wrote. *)
Definition running (bsz rsz : nat) (x : lns) (h : list devent) (s : dstore) (hi : list ievent) (i : istore) (d : disk) : Prop :=
  session bsz h s /\ Z.of_nat (length h) + 2 < 2 ^ 32 /\
  (0 < rsz)%nat /\ isession bsz rsz true hi i /\ Z.of_nat (length hi) < 2 ^ 32 /\
  d !! delta_path x = Some (f_data (ds_file s)) /\ d !! index_path x = Some (f_data (is_file i)).

(** The file [d'] differs from [d] in the byte at [n] only, which is [b]. *)
Definition one_byte (n : nat) (b : byte) (d d' : list byte) : Prop :=
  length d' = length d /\ d' !! n = Some b /\ forall m, m <> n -> d' !! m = d !! m.

Lemma second_start v factory bsz rsz x h s hi i d : obliging v -> (0 < se_csz v)%nat ->
  running bsz rsz x h s hi i d ->
  exists E e, dinv h E s /\ ns_start_with v factory x d = (<[delta_path x := img 0 E]> d, Err e).
Proof.
  intros Hv Hcsz (Hs & Hl & Hr & Hi & Hli & Hd & Hdi).
  destruct (DeltaHistFacts.session_inv bsz h s Hs) as [E I]; [lia|]. exists E.
  destruct (stolen (se_csz v) h E s (File KOs (f_data (ds_file s)) 0 false [] [])) as (g & t & h' & Ho & It & Hu' & Hf & Hlh);
    try done; [lia| |].
  { split; [done|]. split; [done|]. by left. }
  unfold ns_start_with, iobind. fold (delta_path x) (index_path x) (recdb_path x).
  assert (Eo : open_delta_storage v (delta_path x) d = (<[delta_path x := img 1 E]> d, Ret t)).
  { unfold open_delta_storage, iobind, iomaperr, os_open. destruct Hv as (_ & -> & _). cbn [of_opens of_faults].
    rewrite Hd. change (default [] (Some ?z)) with z. rewrite Ho. unfold keep. rewrite insert_insert, <- Hf, (di_data _ _ _ It). done. }
  rewrite Eo. set (d1 := <[delta_path x := img 1 E]> d).
  destruct (C34_broken_index_stays v x d1 Hv) as (e & ->).
  { destruct (IndexFacts.session_inv _ _ _ _ _ Hr Hi Hli) as [J _].
    destruct (ii_data _ _ J) as (cnt & rest & Hc & Hdata).
    exists (f_data (is_file i)). unfold d1. rewrite lookup_insert_ne by apply delta_index_ne. split; [done|].
    rewrite Hdata. split; [done|]. left. by exists 1. }
  exists e. split; [done|]. f_equal. unfold close_delta, keep.
  destruct (close_inv (se_bsz v) (se_dsh v) h' E t It) as (t1 & -> & Ht1 & _).
  { pose proof (di_total _ _ _ I). pose proof (di_bound _ _ _ I). lia. }
  cbn [fst]. rewrite Ht1, (inv_idle h' E t It Hu'). unfold d1. rewrite insert_insert.
  replace (visit (se_dsh v) ∅) with (@nil entry); [by rewrite app_nil_r|].
  symmetry. apply nil_length_inv. by rewrite visit_length.
Qed.

(** * C108
    Full claim: starting a namespace that is running fails and leaves its files alone.
    False: the second Start opens the delta file as if the process that uses it had
    died, is then refused the index, and closes the delta file, which is marked closed
    from then on although the first worker uses it.  Open no longer refuses it, and of
    the operations of the two users one is lost. *)
Theorem C108_second_start_refuted :
  forall v factory bsz rsz x h s hi i d sh sh' opa ua ia opb ub ib,
  obliging v -> (0 < se_csz v)%nat -> running bsz rsz x h s hi i d -> unflushed h = [] ->
  ev_typed (EvAdd opa ua ia) -> ev_typed (EvAdd opb ub ib) ->
  exists d' e data, ns_start_with v factory x d = (d', Err e) /\ d' !! delta_path x = Some data /\
    data !! 9%nat = Some 0 /\ f_data (ds_file s) !! 9%nat = Some 1 /\
    exists g t s1 t1, d_open (open_file KOs data) = (g, Ret t) /\
      d_flush bsz sh (d_add opa ua ia (sees (f_data g) s)) = (s1, Ret tt) /\
      d_close bsz sh' (d_add opb ub ib (sees (f_data (ds_file s1)) t)) = (t1, Ret tt) /\
      forall k, usable k -> f_data k = f_data (ds_file t1) -> exists k' r, d_open k = (k', Ret r) /\
        forall u j, d_get r u j = last_add (h ++ [EvAdd opa ua ia]) u j.
Proof.
  intros v factory bsz rsz x h s hi i d sh sh' opa ua ia opb ub ib Hv Hcsz Hrun Hu (Ha1 & Ha2 & Ha3) (Hb1 & Hb2 & Hb3).
  destruct (second_start v factory bsz rsz x h s hi i d Hv Hcsz Hrun) as (E & e & I & Hst).
  destruct Hrun as (_ & Hl & _).
  assert (HlE : Z.of_nat (length E) <= Z.of_nat (length h)).
  { pose proof (di_total _ _ _ I). pose proof (di_bound _ _ _ I). lia. }
  eexists _, e, (img 0 E). split; [exact Hst|]. split; [apply lookup_insert|]. split; [done|].
  split; [by rewrite (di_data _ _ _ I)|].
  set (k0 := open_file KOs (img 0 E)).
  assert (Hk0 : usable k0) by (split; [done|]; split; [done|]; by left).
  assert (Hty : Forall op_typed (map ent_op E)) by (apply ent_op_typed, I).
  assert (Hd0 : f_data k0 = delta_image 0 (map op_bytes (map ent_op E))) by (by rewrite ent_op_bytes).
  assert (Hlen : Z.of_nat (length (map ent_op E)) < 2 ^ 32) by (rewrite map_length; lia).
  destruct (d_open_image k0 E) as (p & Hp & Ho); try done; [apply I|lia|]. cbn zeta in Ho.
  set (g := File _ _ _ _ _ _) in Ho. set (t := DStore _ _ _ _ _) in Ho.
  destruct (image_inv k0 g t _ Hk0 Hty Hd0 Hlen Ho) as [It Hft]. rewrite ent_op_ent in It.
  assert (Hut : unflushed (map op_event (map ent_op E) ++ [EvFlush]) = []) by apply unflushed_flush.
  destruct (second_is_lost bsz h E s _ t sh sh' opa ua ia opb ub ib k0 I It Hu Hut) as (s1 & t1 & H1 & H2 & _);
    try done; [lia|lia|].
  exists g, t, s1, t1. split; [done|]. split; [exact H1|]. split; [done|].
  intros k Hk Hkd.
  destruct (second_is_lost bsz h E s _ t sh sh' opa ua ia opb ub ib k I It Hu Hut) as (s2 & t2 & H3 & H4 & H5);
    try done; [lia|lia|].
  rewrite H3 in H1. injection H1 as <-. rewrite H4 in H2. injection H2 as <-. auto.
Qed.
Print Assumptions C108_second_start_refuted.

(** What is true: the second Start always fails, so there are never two workers, and
    the lock byte of the delta file is all it changes. *)
Theorem C108_second_start_partial :
  forall v factory bsz rsz x h s hi i d,
  obliging v -> (0 < se_csz v)%nat -> running bsz rsz x h s hi i d ->
  exists d' e data, ns_start_with v factory x d = (d', Err e) /\
    d' = <[delta_path x := data]> d /\ one_byte 9 0 (f_data (ds_file s)) data.
Proof.
  intros v factory bsz rsz x h s hi i d Hv Hcsz Hrun.
  destruct (second_start v factory bsz rsz x h s hi i d Hv Hcsz Hrun) as (E & e & I & Hst).
  eexists _, e, (img 0 E). split; [exact Hst|]. split; [done|].
  rewrite (di_data _ _ _ I), !img_enc. split; [done|]. split; [done|].
  intros m Hm. do 9 (destruct m as [|m]; [done|]). by destruct m as [|m].
Qed.
Print Assumptions C108_second_start_partial.

(** Namespaces get running: a start on closed files does it. *)
Theorem C108_started_runs :
  forall v m x ops l d, obliging v -> of_opens (se_recdb v) = true -> delta_at x ops d -> index_at x l d ->
  Z.of_nat (length ops) + 3 < 2 ^ 32 -> (forall f, exists f', m f = (f', Ret tt)) ->
  exists d' s i, ns_start_with v (Some m) x d = (d', Ret (s, i)) /\
    running (se_bsz v) (se_rsz v) x (map op_event ops ++ [EvFlush]) s (puts l) i d'.
Proof.
  intros v m x ops l d Hv Er (Ht & Hl & Hd) Hi Hl3 Hm.
  destruct (open_delta_image v (delta_path x) d ops Hv Ht Hl Hd) as (ds & Hds & I & Hs & _).
  unfold ns_start_with, iobind. fold (delta_path x) (index_path x) (recdb_path x). rewrite Hds.
  set (d1 := <[delta_path x := _]> d).
  destruct (open_index_at v x l d1 Hv) as (is & tail & His & Hsi).
  { apply index_at_insert; [apply delta_index_ne|done]. }
  assert (Hf : f_data (is_file is) = index_image 1 l ++ tail).
  { assert (H2 : fst (open_index_storage v (index_path x) d1) !! index_path x = Some (f_data (is_file is))).
    2:{ rewrite His in H2. cbn [fst] in H2. rewrite lookup_insert in H2. congruence. }
    revert His. unfold open_index_storage, iobind, iomaperr, os_open. destruct Hv as (_ & _ & ->). cbn [of_opens of_faults].
    destruct (i_open _ _ _ _) as [g [si|e| |]] eqn:Eo; try done.
    - intros [= _ <-]. cbn [fst]. unfold keep. rewrite lookup_insert. f_equal. revert Eo. unfold i_open, iobind.
      destruct (closing true (fseek 0 SeekEnd) _) as [g1 [n| | |]]; try done.
      match goal with |- context [match ?X with (_, _) => _ end] => destruct X as [g2 [mm| | |]] end; try done.
      by intros [= <- <-].
    - rewrite (i_open_error _ _ _ _ _ _ Eo). done. }
  rewrite His. set (d2 := <[index_path x := _]> d1).
  unfold open_like_storage, iobind, iomaperr, os_open. rewrite Er. cbn [of_opens of_faults].
  match goal with |- context [m ?g] => destruct (Hm g) as (g' & ->) end.
  eexists _, ds, is. split; [done|]. split; [done|].
  split; [rewrite app_length, map_length; cbn; lia|]. split; [apply Hv|]. split; [done|].
  split; [by eapply index_at_length|]. unfold keep. split.
  - rewrite insert_insert, lookup_insert_ne by apply not_eq_sym, delta_recdb_ne.
    unfold d2. rewrite lookup_insert_ne by apply not_eq_sym, delta_index_ne. unfold d1. rewrite lookup_insert.
    by rewrite (di_data _ _ _ I), img_ops.
  - rewrite insert_insert, lookup_insert_ne by apply not_eq_sym, index_recdb_ne. unfold d2. by rewrite lookup_insert, Hf.
Qed.
Print Assumptions C108_started_runs.

(** A namespace is started, and once more. *)
Example C108_case :
  let x := case_ns true in
  let r1 := ns_start case_env (ioret tt) x (case_disk 0) in
  let r2 := ns_start case_env (ioret tt) x (fst r1) in
  match snd r1 with Ret (s, i) => d_get s 2 3 = Some 1 | _ => False end /\
  match snd r2 with Err _ => True | _ => False end /\
  fst r1 !! delta_path x = Some (delta_image 1 [op_record 1 2 3]) /\
  fst r2 !! delta_path x = Some (delta_image 0 [op_record 1 2 3]) /\
  fst r2 !! index_path x = Some (index_image 1 [(5, 6)]).
Proof. vm_compute. done. Qed.
