(** Facts about the files Start opens. *)
From Verif Require Import Base GoIO Lock Delta Index Similarity Naming Json Service LikeStart
  SpecFile SpecLock SpecDelta SpecIndex GoIOFacts CodecFacts LockFacts DeltaFacts DeltaStoreFacts
  DeltaSession DeltaHistFacts DeltaRecCrashFacts IndexSession IndexFacts.

(** Opening an index never reports a corrupted file. *)
Lemma i_open_error bsz rsz c f f' e :
  i_open bsz rsz c f = (f', Err e) -> is_corrupted_error e = false.
Proof.
  unfold i_open, iobind at 1, closing at 1. intros H.
  assert (Hs : forall f1 e1, fseek 0 SeekEnd f = (f1, Err e1) -> is_corrupted_error e1 = false).
  { unfold fseek. intros f1 e1. destruct (f_closed f); [intros Hq; by inversion Hq|].
    cbv zeta. match goal with |- (if ?b then _ else _) = _ -> _ => destruct b end; intros Hq; inversion Hq; done. }
  destruct (fseek 0 SeekEnd f) as [f1 [n|e1| |]] eqn:E1; [|simplify_eq; by eapply Hs|done|done].
  unfold iobind in H. destruct (0 <? n).
  - unfold closing, iomaperr in H. destruct (i_load rsz f1) as [f2 [m|e2| |]]; by simplify_eq.
  - unfold closing, iomaperr, ioret in H.
    destruct (i_create bsz f1) as [f2 [m|e2| |]]; by simplify_eq.
Qed.

(** The delta and index files open, read and write without faults. *)
Definition obliging (v : senv) : Prop :=
  (0 < se_rsz v)%nat /\ se_delta v = OsFile true [] /\ se_index v = OsFile true [].

Lemma opened_usable data : usable (File KOs data 0 false [] []).
Proof. split; [done|]. split; [done|]. by left. Qed.

Lemma img_ops b ops : img b (map op_ent ops) = delta_image b (map op_bytes ops).
Proof. unfold img. by rewrite op_ent_rec. Qed.

Lemma open_delta_image v path d ops :
  obliging v -> Forall op_typed ops -> Z.of_nat (length ops) + 1 < 2 ^ 32 ->
  d !! path = Some (delta_image 0 (map op_bytes ops)) ->
  exists s, open_delta_storage v path d = (<[path := delta_image 1 (map op_bytes ops)]> d, Ret s) /\
    dinv (map op_event ops ++ [EvFlush]) (map op_ent ops) s /\
    session (se_bsz v) (map op_event ops ++ [EvFlush]) s /\
    ds_new s = ∅ /\ forall u i, d_get s u i = last_add (map op_event ops) u i.
Proof.
  intros (_ & Ev & _) Ht Hl Hd.
  unfold open_delta_storage, iobind, iomaperr, os_open. rewrite Ev, Hd. cbn [of_opens of_faults default].
  set (f := File KOs _ _ _ _ _).
  assert (Hu : usable f) by apply opened_usable.
  destruct (open_unlocked (se_csz v) f (map op_ent ops)) as (f' & t & Ho & Hm); [done| | | |].
  { by apply op_ent_typed. } { rewrite map_length. lia. } { by rewrite img_ops. }
  rewrite Hm. destruct (image_inv f f' t ops Hu Ht eq_refl) as [I Hf]; [lia|done|].
  exists t. split; [|split; [done|split; [by eapply session_image|split]]].
  - unfold keep. rewrite insert_insert. f_equal. f_equal. rewrite <- Hf, (di_data _ _ _ I). apply img_ops.
  - destruct (d_open_image f (map op_ent ops)) as (p & _ & Ho').
    { by apply usable_healthy. } { by apply op_ent_typed. } { rewrite map_length. lia. } { by rewrite img_ops. }
    cbn zeta in Ho'. rewrite Ho in Ho'. by injection Ho' as _ ->.
  - intros u i. destruct (opened_view f f' t (map op_ent ops)) as (_ & _ & _ & Hg).
    { done. } { by apply op_ent_typed. } { rewrite map_length. lia. } { by rewrite img_ops. } { done. }
    by rewrite Hg, latest_ops.
Qed.

(** Closing it again restores the file. *)
Lemma close_delta_image v path d ops s :
  dinv (map op_event ops ++ [EvFlush]) (map op_ent ops) s -> ds_new s = ∅ ->
  Z.of_nat (length ops) + 1 < 2 ^ 32 ->
  close_delta v path s d = <[path := delta_image 0 (map op_bytes ops)]> d.
Proof.
  intros I Hn Hl. unfold close_delta, keep.
  destruct (close_inv (se_bsz v) (se_dsh v) _ _ _ I) as (s' & Hc & Hd & _).
  { rewrite app_length, map_length. cbn. lia. }
  rewrite Hc. cbn [fst]. rewrite Hd, Hn.
  assert (E : visit (se_dsh v) ∅ = []).
  { apply Permutation_nil. symmetry. by rewrite visit_perm. }
  by rewrite E, app_nil_r, img_ops.
Qed.

Lemma open_index_image v path d l tail :
  obliging v -> Forall (fun x => is_u64 (fst x) /\ is_u64 (snd x)) l -> Z.of_nat (length l) < 2 ^ 32 ->
  d !! path = Some (index_image 0 l ++ tail) ->
  exists s, open_index_storage v path d = (<[path := index_image 1 l ++ tail]> d, Ret s) /\
    isession (se_bsz v) (se_rsz v) true (map (fun x => IvPut (fst x) (snd x)) l) s.
Proof.
  intros (Hr & _ & Ev) Ht Hl Hd.
  unfold open_index_storage, iobind, iomaperr, os_open. rewrite Ev, Hd. cbn [of_opens of_faults default].
  set (f := File KOs _ _ _ _ _).
  assert (Hu : usable f) by apply opened_usable.
  destruct (i_open_image (se_bsz v) (se_rsz v) true f l tail Hr (usable_healthy _ Hu) Ht Hl eq_refl) as (p & _ & Ho).
  cbn zeta in Ho. rewrite Ho. eexists. split.
  - unfold keep. rewrite insert_insert. done.
  - by eapply isession_image.
Qed.

Lemma open_index_empty v path d :
  obliging v -> d !! path = None \/ d !! path = Some [] ->
  exists s, open_index_storage v path d = (<[path := index_image 1 []]> d, Ret s) /\
    isession (se_bsz v) (se_rsz v) true [] s.
Proof.
  intros (Hr & _ & Ev) Hd.
  assert (Hd' : default [] (d !! path) = []) by (by destruct Hd as [-> | ->]).
  unfold open_index_storage, iobind, iomaperr, os_open. rewrite Ev, Hd'. cbn [of_opens of_faults].
  set (f := File KOs _ _ _ _ _).
  assert (Hu : usable f) by apply opened_usable.
  destruct (i_open_empty (se_bsz v) (se_rsz v) true f (usable_healthy _ Hu) eq_refl) as (log & _ & Ho).
  cbn zeta in Ho. rewrite Ho. eexists. split.
  - unfold keep. rewrite insert_insert. done.
  - by eapply isession_new.
Qed.

(** An index file Open refuses is left as it was, whatever the reason. *)
Lemma open_index_bad v path d data :
  obliging v -> d !! path = Some data -> data <> [] ->
  take 6 data <> index_magic \/ (length data < 12)%nat \/ (exists x, data !! 7%nat = Some x /\ x <> 0) ->
  exists e, open_index_storage v path d = (d, Err e).
Proof.
  intros (Hr & _ & Ev) Hd Hne Hbad.
  unfold open_index_storage, iobind, iomaperr, os_open. rewrite Ev, Hd. cbn [of_opens of_faults default].
  set (f := File KOs _ _ _ _ _).
  destruct (i_open_bad (se_bsz v) (se_rsz v) true f Hr (usable_healthy _ (opened_usable _)) Hne Hbad)
    as (f' & e & Ho & Hd').
  rewrite Ho, (i_open_error _ _ _ _ _ _ Ho). cbn [negb]. eexists.
  assert (E : f_data (fst (fclose f')) = data).
  { transitivity (f_data f'); [|done]. apply fclose_data. }
  unfold keep. rewrite E, insert_insert, insert_id by done. done.
Qed.

Lemma path_ne base name k k' : k <> k' -> ns_file_path base name k <> ns_file_path base name k'.
Proof.
  intros Hk E. unfold ns_file_path in E. apply app_inv_head, app_inv_head in E. by destruct k, k'.
Qed.

(** An empty file has no lock byte, whatever its pointer and the faults. *)
Lemma is_locked_empty off f : f_data f = [] -> exists f' e, is_locked_at off f = (f', Err e).
Proof.
  intros Hd. unfold is_locked_at, iobind.
  destruct (fseek 0 SeekCurrent f) as [f1 o1] eqn:E1.
  pose proof (fseek_frame _ _ _ _ _ E1) as (_ & Hd1 & _).
  destruct o1 as [pos|e1| |]; [|by eauto|..].
  2,3: by exfalso; revert E1; unfold fseek; repeat case_match.
  destruct (fseek off SeekStart f1) as [f2 o2] eqn:E2.
  pose proof (fseek_frame _ _ _ _ _ E2) as (_ & Hd2 & _).
  destruct o2 as [pos2|e2| |]; [|by eauto|..].
  2,3: by exfalso; revert E2; unfold fseek; repeat case_match.
  unfold read_one, fread, next_fault. rewrite Hd1, Hd in Hd2.
  destruct (f_closed f2); [by eauto|].
  destruct (f_env f2) as [|x env]; cbn [f_pos f_data f_kind f_closed]; rewrite Hd2, drop_nil.
  - destruct (f_kind f2); eauto.
  - destruct x as [|k]; [destruct (f_kind f2)|]; eauto.
Qed.

Lemma open_maybe_recover_empty csz f : f_data f = [] -> exists f' e, d_open_maybe_recover csz f = (f', Err e).
Proof.
  intros Hd. unfold d_open_maybe_recover, iobind at 1, iomaperr at 1.
  change d_is_locked with (is_locked_at (Z.of_nat 9)).
  destruct (is_locked_empty (Z.of_nat 9) f Hd) as (f' & e & ->). eauto.
Qed.

(** Closing an index stores the pairs it had. *)
Lemma close_index_session v path d h s : (0 < se_rsz v)%nat ->
  isession (se_bsz v) (se_rsz v) true h s -> Z.of_nat (length h) < 2 ^ 32 ->
  exists l tail, close_index v path s d = <[path := index_image 0 l ++ tail]> d /\
    forall id, index_value (map (fun y => IvPut (fst y) (snd y)) l) id None = index_value h id None.
Proof.
  intros Hr Hs Hl. destruct (IndexFacts.session_inv _ _ _ _ _ Hr Hs Hl) as [J _].
  destruct (closed_image (se_bsz v) (se_ish v) h s J) as (s' & tail & Hc & _ & _ & Hd).
  exists (shuf (se_ish v) (map_to_list (is_map s))), tail. split.
  - unfold close_index, keep. by rewrite Hc; cbn [fst]; rewrite Hd.
  - intros id. rewrite <- (ii_map _ _ J id).
    pose proof (imap_lookup (shuf (se_ish v) (map_to_list (is_map s))) ∅ id) as E.
    rewrite imap_saved, lookup_empty in E. by rewrite E.
Qed.
