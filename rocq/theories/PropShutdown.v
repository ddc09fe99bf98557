(** What a shutdown of the shard leaves behind: C73. *)
From Verif Require Import Base GoIO Delta Index Similarity Naming Json Service LikeStart Worker SpecWorker App
  SpecFile SpecLock SpecDelta SpecIndex SpecCrash DeltaSession IndexSession GoIOFacts DeltaStoreFacts StartFacts PropStart
  PropWorker PropApp PropDeltaCrash.

(** What reaches the worker of a namespace from outside, besides calls. *)
Definition controls (wtr : list event) : list event :=
  omap (fun e => match e with EvStart | EvStop | EvCancel => Some e | _ => None end) wtr.

(** main.go: the namespaces are started, and their context is cancelled when Run
    returned without an error; nothing else (Stop is called only to delete a
    namespace, namespaceservice.go:187). *)
Definition shard_controls (atr : list aevent) : list event :=
  EvStart :: omap (fun e => match e with EvCancelled => Some EvCancel | _ => None end) atr.

(** A shard whose process ended with trace [atr], and the worker of a namespace that
    was not deleted. *)
Definition shard_ran (atr : list aevent) (wtr : list event) : Prop :=
  (exists n a, aexec fresh_app atr n a /\ gone a) /\
  (exists k ws, wexec fresh_namespace wtr k ws) /\ controls wtr = shard_controls atr.

(** The index file at the end: closed, if the worker closed it. *)
Definition index_left (bsz : nat) (wtr : list event) (s : istore) (data : list byte) : Prop :=
  (IndexStorage ∈ storages_closed wtr ->
     exists sh s', i_close bsz sh s = (s', Ret tt) /\ data = f_data (is_file s')) /\
  (IndexStorage ∉ storages_closed wtr -> data = f_data (is_file s)).
Definition delta_left (bsz : nat) (wtr : list event) (s : dstore) (data : list byte) : Prop :=
  (DeltaStorage ∈ storages_closed wtr ->
     exists sh s', d_close bsz sh s = (s', Ret tt) /\ data = f_data (ds_file s')) /\
  (DeltaStorage ∉ storages_closed wtr -> data = f_data (ds_file s)).

(** The contract: after a clean exit the namespace starts again. *)
Definition restarts_after_clean_exit : Prop :=
  forall atr wtr bsz rsz h g s t x d, shard_ran atr wtr -> EvExited 0 ∈ atr ->
  (0 < rsz)%nat -> session bsz g t -> isession bsz rsz true h s ->
  Z.of_nat (length g) + 1 < 2 ^ 32 -> Z.of_nat (length h) < 2 ^ 32 ->
  (exists data, delta_left bsz wtr t data /\ d !! delta_path x = Some data) ->
  (exists data, index_left bsz wtr s data /\ d !! index_path x = Some data) ->
  forall v m, obliging v -> (forall f, exists f', m f = (f', Ret tt)) ->
  exists d' r, ns_start_with v (Some m) x d = (d', Ret r).

Lemma never_stopped atr wtr : shard_ran atr wtr -> storages_closed wtr = [].
Proof.
  intros (_ & (k & ws & H) & Hc). apply (C55_never_without_stop _ _ _ H). intros Hs.
  assert (Hin : EvStop ∈ controls wtr) by (apply elem_of_list_omap; by exists EvStop).
  rewrite Hc in Hin. apply elem_of_cons in Hin as [Hin|Hin]; [done|].
  apply elem_of_list_omap in Hin as (e & _ & E). by destruct e.
Qed.

Lemma start_broken_any v factory x d : obliging v -> index_broken x d ->
  fst (ns_start_with v factory x d) !! index_path x = d !! index_path x /\
  forall r, snd (ns_start_with v factory x d) <> Ret r.
Proof.
  intros Hv (data & Hd & Hb). unfold ns_start_with, iobind. fold (delta_path x) (index_path x) (recdb_path x).
  assert (H1 : fst (open_delta_storage v (delta_path x) d) !! index_path x = d !! index_path x).
  { unfold open_delta_storage, iobind, iomaperr, os_open. destruct Hv as (_ & -> & _). cbn [of_opens of_faults].
    destruct (d_open_maybe_recover _ _) as [g [ds'|e| |]]; cbn [fst]; unfold keep;
      by rewrite insert_insert, lookup_insert_ne by apply delta_index_ne. }
  destruct (open_delta_storage v (delta_path x) d) as [d1 [ds|e| |]]; try done. cbn [fst] in H1.
  destruct (C34_broken_index_stays v x d1 Hv) as (e & ->).
  { exists data. by rewrite H1. }
  cbn [fst snd]. split; [|done]. unfold close_delta, keep. by rewrite lookup_insert_ne by apply delta_index_ne.
Qed.

(** However the process ended, cleanly or not, and whatever was done to the index: no
    namespace that was running starts again, at any number of attempts. *)
Theorem C73_shutdown_blocks_every_start :
  forall atr wtr bsz rsz h s data x d, shard_ran atr wtr ->
  (0 < rsz)%nat -> isession bsz rsz true h s -> Z.of_nat (length h) < 2 ^ 32 ->
  index_left bsz wtr s data -> d !! index_path x = Some data ->
  forall attempts : list (senv * option (io file unit)), Forall (fun a => obliging (fst a)) attempts ->
  let after := foldl (fun d a => fst (ns_start_with (fst a) (snd a) x d)) d attempts in
  forall v factory r, obliging v -> snd (ns_start_with v factory x after) <> Ret r.
Proof.
  intros atr wtr bsz rsz h s data x d Hr Hz Hs Hl Hi Hd attempts Ha after v factory r Hv.
  destruct Hi as [_ Hi]. rewrite (never_stopped _ _ Hr) in Hi. specialize (Hi (not_elem_of_nil _)). subst data.
  assert (Hb : forall d', d' !! index_path x = d !! index_path x -> index_broken x d').
  { intros d' E. destruct (IndexFacts.session_inv _ _ _ _ _ Hz Hs Hl) as [J _].
    destruct (IndexFacts.ii_data _ _ J) as (cnt & rest & Hc & Hdata).
    exists (f_data (is_file s)). rewrite E. split; [done|]. rewrite Hdata. split; [done|]. left. by exists 1. }
  apply start_broken_any; [done|]. apply Hb. subst after. clear Hv v factory r.
  assert (E : d !! index_path x = d !! index_path x) by done. revert E. generalize d at 1 3 as d0. intros d0 E.
  revert d0 E. induction Ha as [|a attempts Hv Ha IH]; intros d0 E; [done|]. cbn [foldl]. apply IH.
  rewrite <- E. apply start_broken_any; [done|by apply Hb].
Qed.
Print Assumptions C73_shutdown_blocks_every_start.

(** The data is safe all the same: with the index file taken away the namespace starts
    and knows everything that was flushed. *)
Theorem C73_start_without_index_partial :
  forall atr wtr bsz g t data x d, shard_ran atr wtr ->
  session bsz g t -> Z.of_nat (length g) < 2 ^ 32 ->
  delta_left bsz wtr t data -> d !! delta_path x = Some data -> d !! index_path x = None ->
  forall v m, obliging v -> (0 < se_csz v)%nat -> of_opens (se_recdb v) = true ->
  (forall f, exists f', m f = (f', Ret tt)) ->
  exists d' ds is, ns_start_with v (Some m) x d = (d', Ret (ds, is)) /\
    (forall user item, d_get ds user item = last_add (durable g) user item) /\
    (forall id, i_get is id = None).
Proof.
  intros atr wtr bsz g t data x d Hr Hg Hl [_ Hd] Hdd Hdi v m Hv Hc Er Hm.
  rewrite (never_stopped _ _ Hr) in Hd. specialize (Hd (not_elem_of_nil _)). subst data.
  set (f := File KOs (f_data (ds_file t)) 0 false [] []).
  destruct (C25_crash_in_call bsz (se_csz v) g t Hg Hl Hc (DAdd 0 0 0) (d_add 0 0 0 t) 0 f)
    as (f' & ds & h' & Ho & _ & Hget & _).
  { done. } { apply opened_usable. } { done. } { done. }
  unfold ns_start_with, iobind. fold (delta_path x) (index_path x) (recdb_path x).
  assert (H1 : open_delta_storage v (delta_path x) d = (<[delta_path x := f_data f']> d, Ret ds)).
  { unfold open_delta_storage, iobind, iomaperr, os_open. destruct Hv as (_ & -> & _).
    cbn [of_opens of_faults]. rewrite Hdd. cbn [default]. change (id (f_data (ds_file t))) with (f_data (ds_file t)).
    fold f. rewrite Ho. unfold keep. by rewrite insert_insert. }
  rewrite H1. set (d1 := <[delta_path x := _]> d).
  destruct (open_index_at v x [] d1 Hv) as (is & tail & His & Hs).
  { left. split; [done|]. left. unfold d1. by rewrite lookup_insert_ne by apply delta_index_ne. }
  rewrite His. unfold open_like_storage, iobind, iomaperr, os_open. rewrite Er.
  match goal with |- context [m ?y] => destruct (Hm y) as (y' & ->) end.
  eexists _, ds, is. split; [done|]. split.
  - intros u i. destruct (Hget u i) as [-> | ->]; [done|]. cbn [event_of].
    by rewrite DeltaHistFacts.durable_add.
  - destruct (IndexFacts.session_inv _ _ _ _ _ (proj1 Hv) Hs) as [J _]; [done|].
    intros id. apply (IndexFacts.ii_map _ _ J).
Qed.
Print Assumptions C73_start_without_index_partial.

(** A shard that was shut down cleanly. *)
Definition clean_trace : list aevent :=
  [EvServing; EvSignal; EvDelivered; EvGone; EvSignal; EvServerClosed; EvReturned None;
   EvCancelled; EvExited 0].

Lemma clean_case : shard_ran clean_trace [EvStart; EvCancel].
Proof.
  split; [|split; [|done]].
  - destruct C58_clean_case as [n H]. exists n. eexists. split; [exact H|done].
  - exists 0%nat. eexists. change [EvStart; EvCancel] with (([] ++ [EvStart]) ++ [EvCancel]).
    eapply exec_env; [eapply exec_env; [constructor|done|by apply (es_start fresh_namespace)]|done|].
    apply es_cancel.
Qed.

Theorem C73_restart_refuted : ~ restarts_after_clean_exit.
Proof.
  intros H.
  destruct (i_open 16 16 true (open_file KOs [])) as [f1 [s|e| |]] eqn:Ei; try (vm_compute in Ei; discriminate Ei).
  destruct (d_open (open_file KOs [])) as [f2 [t|e| |]] eqn:Ed; try (vm_compute in Ed; discriminate Ed).
  assert (Hu : usable (open_file KOs [])) by apply opened_usable.
  assert (Hs : isession 16 16 true [] s) by (by eapply isession_new).
  assert (Ht : session 16 [] t) by (by eapply session_new).
  set (x := case_ns true).
  assert (Hd : exists d : disk, d !! delta_path x = Some (f_data (ds_file t)) /\ d !! index_path x = Some (f_data (is_file s))).
  { exists (<[delta_path x := f_data (ds_file t)]> {[ index_path x := f_data (is_file s) ]}).
    rewrite lookup_insert, lookup_insert_ne by apply delta_index_ne. split; [done|]. apply lookup_singleton. }
  destruct Hd as (d & Hd & Hi).
  assert (Hil : index_left 16 [EvStart; EvCancel] s (f_data (is_file s))).
  { split; [|done]. intros Hx. by apply elem_of_nil in Hx. }
  assert (Hdl : delta_left 16 [EvStart; EvCancel] t (f_data (ds_file t))).
  { split; [|done]. intros Hx. by apply elem_of_nil in Hx. }
  destruct (H clean_trace [EvStart; EvCancel] 16%nat 16%nat [] [] s t x d clean_case) with (v := case_env) (m := fun f : file => (f, Ret tt))
    as (d' & r & E).
  - by repeat (first [apply elem_of_list_here|apply elem_of_list_further]).
  - lia.
  - done.
  - done.
  - done.
  - done.
  - eauto.
  - eauto.
  - apply case_env_ok.
  - eauto.
  - refine (C73_shutdown_blocks_every_start _ _ 16 16 [] s _ x d clean_case _ Hs _ Hil Hi [] _ case_env (Some (fun f => (f, Ret tt))) r case_env_ok _).
    + lia.
    + done.
    + constructor.
    + cbn [foldl]. by rewrite E.
Qed.
Print Assumptions C73_restart_refuted.

Example C73_case : shard_ran clean_trace [EvStart; EvCancel] /\ EvExited 0 ∈ clean_trace /\
  exists f s f' t, i_open 16 16 true (open_file KOs []) = (f, Ret s) /\ isession 16 16 true [] s /\
    d_open (open_file KOs []) = (f', Ret t) /\ session 16 [] t.
Proof.
  split; [exact clean_case|]. split.
  { by repeat (first [apply elem_of_list_here|apply elem_of_list_further]). }
  destruct (i_open 16 16 true (open_file KOs [])) as [f1 [s|e| |]] eqn:Ei; try (vm_compute in Ei; discriminate Ei).
  destruct (d_open (open_file KOs [])) as [f2 [t|e| |]] eqn:Ed; try (vm_compute in Ed; discriminate Ed).
  assert (Hu : usable (open_file KOs [])) by apply opened_usable.
  exists f1, s, f2, t. split; [done|]. split; [by eapply isession_new|]. split; [done|]. by eapply session_new.
Qed.
