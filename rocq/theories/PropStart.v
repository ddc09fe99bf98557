(** Starting a namespace: C34, C57, C72. *)
From Flocq Require Import IEEE754.BinarySingleNaN.
From Verif Require Import Base GoIO Lock Delta Index Similarity Naming Json Service LikeStart
  SpecFile SpecLock SpecDelta SpecIndex DeltaSession IndexSession GoIOFacts DeltaStoreFacts
  DeltaHistFacts IndexFacts StartFacts.

(** The three files of a namespace. *)
Definition delta_path (x : lns) := ns_file_path (ln_base x) (ln_name x) DeltaFile.
Definition index_path (x : lns) := ns_file_path (ln_base x) (ln_name x) IndexFile.
Definition recdb_path (x : lns) := ns_file_path (ln_base x) (ln_name x) RecdbFile.

(** The delta file holds the operations [ops], and is closed. *)
Definition delta_at (x : lns) (ops : list (Z * Z * Z)) (d : disk) : Prop :=
  Forall op_typed ops /\ Z.of_nat (length ops) + 1 < 2 ^ 32 /\
  d !! delta_path x = Some (delta_image 0 (map op_bytes ops)).

(** The index file does not exist, is empty, or is closed and holds the pairs [l]. *)
Definition index_at (x : lns) (l : list (Z * Z)) (d : disk) : Prop :=
  (l = [] /\ (d !! index_path x = None \/ d !! index_path x = Some [])) \/
  (Forall (fun y => is_u64 (fst y) /\ is_u64 (snd y)) l /\ Z.of_nat (length l) < 2 ^ 32 /\
   exists tail, d !! index_path x = Some (index_image 0 l ++ tail)).

Definition puts (l : list (Z * Z)) : list ievent := map (fun y => IvPut (fst y) (snd y)) l.

(** The index file is one Open refuses: locked by a process that is gone, not an
    index, or cut short. *)
Definition index_broken (x : lns) (d : disk) : Prop :=
  exists data, d !! index_path x = Some data /\ data <> [] /\
    ((exists b, data !! 7%nat = Some b /\ b <> 0) \/ take 6 data <> index_magic \/ (length data < 12)%nat).

(** Concrete settings for the examples. *)
Definition case_env : senv :=
  SEnv 16 16 16 (Shuffle _ (fun l => l) (fun l => reflexivity l)) (Shuffle _ (fun l => l) (fun l => reflexivity l))
    (OsFile true []) (OsFile true []) (OsFile true []).
Definition case_ns (factory : bool) : lns :=
  new_like_namespace (LnsDto (ascii_bytes "a") 1 (B754_zero false) (ascii_bytes "data/") factory).
Lemma case_env_ok : obliging case_env.
Proof. split; [cbn; lia|done]. Qed.

Lemma delta_index_ne x : delta_path x <> index_path x.
Proof. by apply path_ne. Qed.
Lemma delta_recdb_ne x : delta_path x <> recdb_path x.
Proof. by apply path_ne. Qed.
Lemma index_recdb_ne x : index_path x <> recdb_path x.
Proof. by apply path_ne. Qed.

Lemma open_index_at v x l d : obliging v -> index_at x l d ->
  exists s tail, open_index_storage v (index_path x) d =
    (<[index_path x := index_image 1 l ++ tail]> d, Ret s) /\
    isession (se_bsz v) (se_rsz v) true (puts l) s.
Proof.
  intros Hv [[-> Hd] | (Ht & Hl & tail & Hd)].
  - destruct (open_index_empty v (index_path x) d Hv Hd) as (s & Ho & Hs). exists s, []. by rewrite app_nil_r.
  - destruct (open_index_image v (index_path x) d l tail Hv Ht Hl Hd) as (s & Ho & Hs). by exists s, tail.
Qed.

Lemma index_at_length x l d : index_at x l d -> Z.of_nat (length (puts l)) < 2 ^ 32.
Proof. intros [[-> _] | (_ & Hl & _)]; [done|]. unfold puts. by rewrite map_length. Qed.

Lemma index_at_insert x l d p data : p <> index_path x -> index_at x l d -> index_at x l (<[p := data]> d).
Proof. intros Hp H. unfold index_at. by rewrite lookup_insert_ne. Qed.

(** * C57 *)

(** False: no namespace whose delta file is missing or empty ever starts, whatever the
    factory, the other files, the buffer sizes and the faults. *)
Theorem C57_fresh_start_refuted :
  forall v factory x d, d !! delta_path x = None \/ d !! delta_path x = Some [] ->
  exists d' e, ns_start_with v factory x d = (d', Err e) /\
    d' !! index_path x = d !! index_path x /\ d' !! recdb_path x = d !! recdb_path x.
Proof.
  intros v factory x d Hd. unfold ns_start_with. fold (delta_path x).
  assert (E : exists d' e, open_delta_storage v (delta_path x) d = (d', Err e) /\
    forall p, p <> delta_path x -> d' !! p = d !! p).
  { unfold open_delta_storage, iobind, iomaperr, os_open. destruct (of_opens (se_delta v)); [|by eauto].
    assert (Hd' : default [] (d !! delta_path x) = []) by (by destruct Hd as [-> | ->]). rewrite Hd'.
    match goal with |- context [d_open_maybe_recover _ ?g] =>
      destruct (open_maybe_recover_empty (se_csz v) g eq_refl) as (f' & e & ->) end.
    eexists _, _. split; [done|]. intros p Hp. unfold keep. by rewrite insert_insert, lookup_insert_ne. }
  destruct E as (d' & e & E & Hp). unfold iobind. rewrite E. eexists _, _. split; [done|].
  split; apply Hp; [apply not_eq_sym, delta_index_ne|apply not_eq_sym, delta_recdb_ne].
Qed.
Print Assumptions C57_fresh_start_refuted.

(** A namespace created through the service never starts, on any disk: it has no like
    storage factory. *)
Theorem C57_forged_never_starts :
  forall dto x v factory d r, forge_namespace dto = Ret x -> snd (ns_start v factory x d) <> Ret r.
Proof.
  intros dto x v factory d r Hx.
  assert (Hf : ln_has_factory x = false).
  { unfold forge_namespace in Hx. case_bool_decide; [by injection Hx as <-|done]. }
  unfold ns_start. rewrite Hf. unfold ns_start_with, iobind.
  destruct (open_delta_storage _ _ d) as [d1 [ds|e| |]]; try done.
  destruct (open_index_storage _ _ d1) as [d2 [is|e| |]]; try done.
  unfold open_like_storage, iobind, iomaperr.
  by destruct (os_open _ _ d2) as [d3 [g|e| |]].
Qed.
Print Assumptions C57_forged_never_starts.

(** What does start: a namespace with a closed delta file, without an index or with a
    closed one, given a factory that opens the recdb file.  The storages answer from
    the files, and both files are locked meanwhile. *)
Theorem C57_start_partial :
  forall v m x ops l d, obliging v -> of_opens (se_recdb v) = true -> delta_at x ops d -> index_at x l d ->
  (forall f, exists f', m f = (f', Ret tt)) ->
  exists d' ds is tail, ns_start_with v (Some m) x d = (d', Ret (ds, is)) /\
    (forall user item, d_get ds user item = last_add (map op_event ops) user item) /\
    (forall id, i_get is id = index_value (puts l) id None) /\
    d' !! delta_path x = Some (delta_image 1 (map op_bytes ops)) /\
    d' !! index_path x = Some (index_image 1 l ++ tail).
Proof.
  intros v m x ops l d Hv Er (Ht & Hl & Hd) Hi Hm.
  destruct (open_delta_image v (delta_path x) d ops Hv Ht Hl Hd) as (ds & Hds & _ & _ & _ & Hg).
  unfold ns_start_with, iobind. fold (delta_path x) (index_path x) (recdb_path x). rewrite Hds.
  set (d1 := <[delta_path x := _]> d).
  destruct (open_index_at v x l d1 Hv) as (is & tail & His & Hs).
  { apply index_at_insert; [apply delta_index_ne|done]. }
  rewrite His. set (d2 := <[index_path x := _]> d1).
  unfold open_like_storage, iobind, iomaperr, os_open. rewrite Er.
  cbn [of_opens of_faults].
  match goal with |- context [m ?g] => destruct (Hm g) as (g' & ->) end.
  eexists _, ds, is, tail. split; [done|]. split; [|split; [|split]].
  - exact Hg.
  - destruct (IndexFacts.session_inv _ _ _ _ _ (proj1 Hv) Hs (index_at_length _ _ _ Hi)) as [J _]. apply (ii_map _ _ J).
  - unfold keep. rewrite insert_insert, lookup_insert_ne by apply not_eq_sym, delta_recdb_ne.
    unfold d2. rewrite lookup_insert_ne by apply not_eq_sym, delta_index_ne. apply lookup_insert.
  - unfold keep. rewrite insert_insert, lookup_insert_ne by apply not_eq_sym, index_recdb_ne. apply lookup_insert.
Qed.
Print Assumptions C57_start_partial.

(** * C34 *)

(** The contract: a locked index file is reset, and the start goes on. *)
Definition broken_index_is_reset : Prop :=
  forall v x d b data, obliging v -> d !! index_path x = Some data -> data !! 7%nat = Some b -> b <> 0 ->
  exists s, open_index_storage v (index_path x) d = (<[index_path x := index_image 1 []]> d, Ret s).

(** [e] is the error [e0], or [e0] with contexts put around it (%w). *)
Inductive wraps (e0 : err) : err -> Prop :=
| wraps_itself : wraps e0 e0
| wraps_context c e : wraps e0 e -> wraps e0 (EWrap c e).

(** Start would recognise the error that means a broken file, under any contexts, and
    takes no other error for it. *)
Theorem C34_corruption_recognised : forall e, is_corrupted_error e = true <-> wraps ECorrupted e.
Proof.
  intros e. split.
  - induction e; intros H; try done; [constructor|]. apply wraps_context. auto.
  - by induction 1.
Qed.
Print Assumptions C34_corruption_recognised.

(** What happens instead, for every broken index file: the error is not recognised,
    the file is left as it is. *)
Theorem C34_broken_index_stays :
  forall v x d, obliging v -> index_broken x d ->
  exists e, open_index_storage v (index_path x) d = (d, Err e).
Proof.
  intros v x d Hv (data & Hd & Hne & Hb). apply (open_index_bad v (index_path x) d data Hv Hd Hne).
  destruct Hb as [Hb | [Hb | Hb]]; auto.
Qed.
Print Assumptions C34_broken_index_stays.

(** The reset code is dead: an error of Open always ends the start, whatever the faults
    and the content. *)
Theorem C34_open_error_ends_start :
  forall v x d f' e, of_opens (se_index v) = true ->
  i_open (se_bsz v) (se_rsz v) true
    (File KOs (default [] (d !! index_path x)) 0 false (of_faults (se_index v)) []) = (f', Err e) ->
  exists e', open_index_storage v (index_path x) d = (<[index_path x := f_data f']> d, Err e').
Proof.
  intros v x d f' e Ho H. unfold open_index_storage, iobind, iomaperr, os_open. rewrite Ho, H.
  rewrite (i_open_error _ _ _ _ _ _ H). cbn [negb]. eexists. unfold keep. by rewrite fclose_data, insert_insert.
Qed.
Print Assumptions C34_open_error_ends_start.

Theorem C34_broken_index_is_reset_refuted : ~ broken_index_is_reset.
Proof.
  intros H.
  assert (Hd : exists d : disk, d !! index_path (case_ns true) = Some (index_image 1 [(5, 6)])).
  { eexists {[ index_path (case_ns true) := _ ]}. apply lookup_singleton. }
  destruct Hd as [d Hd].
  destruct (H case_env (case_ns true) d 1 _ case_env_ok Hd) as (s & E); [done|done|].
  destruct (C34_broken_index_stays case_env (case_ns true) d case_env_ok) as (e & E').
  - eexists. split; [exact Hd|]. split; [done|]. left. by exists 1.
  - congruence.
Qed.
Print Assumptions C34_broken_index_is_reset_refuted.

(** The part that holds: an index file that is missing, empty or closed is opened. *)
Theorem C34_unbroken_index_partial :
  forall v x l d, obliging v -> index_at x l d ->
  exists s d', open_index_storage v (index_path x) d = (d', Ret s) /\
    forall id, i_get s id = index_value (puts l) id None.
Proof.
  intros v x l d Hv Hi. destruct (open_index_at v x l d Hv Hi) as (s & tail & Ho & Hs).
  exists s. eexists. split; [exact Ho|].
  destruct (IndexFacts.session_inv _ _ _ _ _ (proj1 Hv) Hs (index_at_length _ _ _ Hi)) as [J _]. apply (ii_map _ _ J).
Qed.
Print Assumptions C34_unbroken_index_partial.

Lemma ns_start_broken v factory x ops d : obliging v -> delta_at x ops d -> index_broken x d ->
  exists e, ns_start_with v factory x d = (d, Err e).
Proof.
  intros Hv (Ht & Hl & Hd) (data & Hi & Hb).
  destruct (open_delta_image v (delta_path x) d ops Hv Ht Hl Hd) as (ds & Hds & I & _ & Hn & _).
  unfold ns_start_with, iobind. fold (delta_path x) (index_path x) (recdb_path x). rewrite Hds.
  set (d1 := <[delta_path x := _]> d).
  destruct (C34_broken_index_stays v x d1 Hv) as (e & ->).
  { exists data. unfold d1. rewrite lookup_insert_ne by apply delta_index_ne. done. }
  exists e. rewrite (close_delta_image v _ _ ops ds I Hn Hl). unfold d1.
  rewrite insert_insert, insert_id by done. done.
Qed.

(** After a crash the namespace never starts again: the index file of a process that
    was using it (after any calls) makes every attempt fail, and every attempt leaves
    the disk as it was. *)
Theorem C34_crash_blocks_every_start :
  forall bsz rsz h s x ops d, (0 < rsz)%nat -> isession bsz rsz true h s -> Z.of_nat (length h) < 2 ^ 32 ->
  delta_at x ops d -> d !! index_path x = Some (f_data (is_file s)) ->
  forall attempts : list (senv * option (io file unit)), Forall (fun a => obliging (fst a)) attempts ->
  let after := foldl (fun d a => fst (ns_start_with (fst a) (snd a) x d)) d attempts in
  after = d /\ forall v factory, obliging v -> exists e, snd (ns_start_with v factory x after) = Err e.
Proof.
  intros bsz rsz h s x ops d Hr Hs Hl Hd Hi attempts Ha.
  assert (Hb : index_broken x d).
  { destruct (IndexFacts.session_inv _ _ _ _ _ Hr Hs Hl) as [J _].
    destruct (ii_data _ _ J) as (cnt & rest & Hc & Hdata).
    exists (f_data (is_file s)). split; [done|]. rewrite Hdata. split; [done|]. left. by exists 1. }
  cbn zeta. assert (E : foldl (fun d a => fst (ns_start_with (fst a) (snd a) x d)) d attempts = d).
  { induction Ha as [|a attempts Hv Ha IH]; [done|]. cbn [foldl].
    destruct (ns_start_broken (fst a) (snd a) x ops d Hv Hd Hb) as (e & ->). exact IH. }
  rewrite E. split; [done|]. intros v factory Hv.
  destruct (ns_start_broken v factory x ops d Hv Hd Hb) as (e & ->). by exists e.
Qed.
Print Assumptions C34_crash_blocks_every_start.

(** * C72 *)

(** The files are as a start found them: the operations and the pairs are the same,
    nothing is locked. *)
Definition files_kept (x : lns) (ops : list (Z * Z * Z)) (l : list (Z * Z)) (d : disk) : Prop :=
  d !! delta_path x = Some (delta_image 0 (map op_bytes ops)) /\
  exists l' tail, d !! index_path x = Some (index_image 0 l' ++ tail) /\
    forall id, index_value (puts l') id None = index_value (puts l) id None.

(** The contract: a start that does not succeed leaves such files behind. *)
Definition failed_start_keeps_files : Prop :=
  forall v factory x ops l d, obliging v -> delta_at x ops d -> index_at x l d ->
  forall d' r, ns_start v factory x d = (d', r) -> (forall s, r <> Ret s) -> files_kept x ops l d'.

(** What the start of a namespace without a factory does: it panics with both files
    locked, and no later start succeeds, with a factory or without. *)
Theorem C72_no_factory_locks_files :
  forall v factory x ops l d, obliging v -> of_opens (se_recdb v) = true ->
  delta_at x ops d -> index_at x l d -> ln_has_factory x = false ->
  exists d' tail, ns_start v factory x d = (d', Panic) /\
    d' !! delta_path x = Some (delta_image 1 (map op_bytes ops)) /\
    d' !! index_path x = Some (index_image 1 l ++ tail) /\
    forall v' factory' r, obliging v' -> snd (ns_start_with v' factory' x d') <> Ret r.
Proof.
  intros v factory x ops l d Hv Er (Ht & Hl & Hd) Hi Hf.
  destruct (open_delta_image v (delta_path x) d ops Hv Ht Hl Hd) as (ds & Hds & _).
  unfold ns_start. rewrite Hf. unfold ns_start_with, iobind.
  fold (delta_path x) (index_path x) (recdb_path x). rewrite Hds.
  set (d1 := <[delta_path x := _]> d).
  destruct (open_index_at v x l d1 Hv) as (is & tail & His & _).
  { apply index_at_insert; [apply delta_index_ne|done]. }
  rewrite His. set (d2 := <[index_path x := _]> d1).
  unfold open_like_storage, iobind, iomaperr, os_open. rewrite Er.
  unfold keep. eexists _, tail. split; [done|].
  match goal with |- context [?dd !! delta_path x] => set (d3 := dd) end.
  assert (Hi3 : d3 !! index_path x = Some (index_image 1 l ++ tail)).
  { unfold d3. rewrite insert_insert, lookup_insert_ne by apply not_eq_sym, index_recdb_ne. apply lookup_insert. }
  split; [|split; [done|]].
  - unfold d3. rewrite insert_insert, lookup_insert_ne by apply not_eq_sym, delta_recdb_ne.
    unfold d2. rewrite lookup_insert_ne by apply not_eq_sym, delta_index_ne. apply lookup_insert.
  - intros v' factory' r Hv'. fold (delta_path x) (index_path x) (recdb_path x).
    destruct (open_delta_storage v' (delta_path x) d3) as [d4 [ds'|e| |]] eqn:E4; try done.
    assert (H4 : d4 !! index_path x = d3 !! index_path x).
    { revert E4. unfold open_delta_storage, iobind, iomaperr, os_open. destruct Hv' as (_ & -> & _).
      cbn [of_opens of_faults]. destruct (d_open_maybe_recover _ _) as [g [ds''|e| |]]; intros [= <- _].
      unfold keep. rewrite insert_insert, lookup_insert_ne by apply delta_index_ne. done. }
    destruct (C34_broken_index_stays v' x d4 Hv') as (e & ->); [|done].
    exists (index_image 1 l ++ tail). rewrite H4, Hi3. split; [done|]. split; [done|]. left. by exists 1.
Qed.
Print Assumptions C72_no_factory_locks_files.

Theorem C72_failed_start_keeps_files_refuted : ~ failed_start_keeps_files.
Proof.
  intros H. set (x := case_ns false).
  set (d := <[index_path x := index_image 0 [(5, 6)]]> {[ delta_path x := delta_image 0 [op_record 1 2 3] ]} : disk).
  assert (Hd : delta_at x [(1, 2, 3)] d).
  { split; [by repeat constructor|]. split; [done|]. done. }
  assert (Hi : index_at x [(5, 6)] d).
  { right. split; [by repeat constructor|]. split; [done|]. by exists []. }
  destruct (C72_no_factory_locks_files case_env (ioret tt) x _ _ d case_env_ok eq_refl Hd Hi eq_refl)
    as (d' & tail & Es & Hd' & _).
  destruct (H case_env (ioret tt) x _ _ d case_env_ok Hd Hi d' Panic Es) as [Hk _]; [done|].
  rewrite Hd' in Hk. discriminate Hk.
Qed.
Print Assumptions C72_failed_start_keeps_files_refuted.

(** The part that holds: a start that fails because of the index leaves the disk as it
    was ... *)
Theorem C72_broken_index_keeps_disk :
  forall v factory x ops d, obliging v -> delta_at x ops d -> index_broken x d ->
  exists e, ns_start_with v factory x d = (d, Err e).
Proof. exact ns_start_broken. Qed.
Print Assumptions C72_broken_index_keeps_disk.

(** ... and one that fails because the recdb file does not open, or the factory returns
    an error, closes the delta and index files. *)
Theorem C72_failed_start_partial :
  forall v factory x ops l d, obliging v -> delta_at x ops d -> index_at x l d ->
  of_opens (se_recdb v) = false \/ (exists m, factory = Some m /\ forall f, exists f' e, m f = (f', Err e)) ->
  exists d' e, ns_start_with v factory x d = (d', Err e) /\ files_kept x ops l d'.
Proof.
  intros v factory x ops l d Hv (Ht & Hl & Hd) Hi Hm.
  destruct (open_delta_image v (delta_path x) d ops Hv Ht Hl Hd) as (ds & Hds & I & _ & Hn & _).
  unfold ns_start_with, iobind. fold (delta_path x) (index_path x) (recdb_path x). rewrite Hds.
  set (d1 := <[delta_path x := _]> d).
  destruct (open_index_at v x l d1 Hv) as (is & tail & His & Hs).
  { apply index_at_insert; [apply delta_index_ne|done]. }
  rewrite His. set (d2 := <[index_path x := _]> d1).
  assert (E : exists d3 e, open_like_storage v factory (recdb_path x) d2 = (d3, Err e)).
  { unfold open_like_storage, iobind, iomaperr, os_open. destruct Hm as [-> | (m & -> & Hm)]; [eauto|].
    destruct (of_opens _); [|eauto].
    match goal with |- context [m ?g] => destruct (Hm g) as (g' & e & ->) end. eauto. }
  destruct E as (d3 & e & ->). eexists _, e. split; [done|].
  rewrite (close_delta_image v _ _ ops ds I Hn Hl).
  destruct (close_index_session v (index_path x) (<[delta_path x := delta_image 0 (map op_bytes ops)]> d3)
    (puts l) is (proj1 Hv) Hs (index_at_length _ _ _ Hi)) as (l' & tail' & -> & Hv').
  split.
  - rewrite lookup_insert_ne by apply not_eq_sym, delta_index_ne. apply lookup_insert.
  - exists l', tail'. split; [apply lookup_insert|done].
Qed.
Print Assumptions C72_failed_start_partial.

(** * Cases *)

Definition case_disk (b : Z) : disk :=
  <[index_path (case_ns true) := index_image b [(5, 6)]]>
    {[ delta_path (case_ns true) := delta_image 0 [op_record 1 2 3] ]}.

Example start_case_hypotheses :
  delta_at (case_ns true) [(1, 2, 3)] (case_disk 0) /\ index_at (case_ns true) [(5, 6)] (case_disk 0) /\
  index_broken (case_ns true) (case_disk 1).
Proof.
  split; [|split].
  - split; [by repeat constructor|]. split; [done|]. done.
  - right. split; [by repeat constructor|]. split; [done|]. by exists [].
  - exists (index_image 1 [(5, 6)]). split; [done|]. split; [done|]. left. by exists 1.
Qed.

Example start_case :
  let answer r := match r with Ret (ds, is) => Ret (d_get ds 2 3, i_get is 5) | Err e => Err e | Panic => Panic | Hang => Hang end in
  let start m x d := answer (snd (ns_start case_env m x d)) in
  start (ioret tt) (case_ns true) (case_disk 0) = Ret (Some 1, Some 6) /\
  start (iofail EInjected) (case_ns true) (case_disk 0) = Err (EWrap "failed to open like storage" EInjected) /\
  start (ioret tt) (case_ns false) (case_disk 0) = Panic /\
  start (ioret tt) (case_ns true) (case_disk 1) =
    Err (EWrap "failed to open delta storage" (EMsg "failed to load index")) /\
  start (ioret tt) (case_ns true) ∅ =
    Err (EWrap "failed to open delta storage" (EMsg "failed to check if file is locked")).
Proof. vm_compute. done. Qed.
