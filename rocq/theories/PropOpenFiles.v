(** The files a start of a namespace leaves open: C112. *)
From Verif Require Import Base GoIO Lock Delta Index Naming Service LikeStart StartFiles
  SpecFile SpecDelta SpecIndex DeltaSession IndexSession GoIOFacts IndexFacts StartFacts StartFilesFacts
  PropStart PropDeltaFault.

(** * C112 *)

(** What [fs_start] does besides keeping account of the open files is what
    [ns_start_with] does, the model of the other properties. *)
Theorem C112_same_start :
  forall v factory x s s' r, fs_start v factory x s = (s', r) ->
  ns_start_with v factory x (o_disk s) = (o_disk s', r).
Proof. intros v factory x s s' r E. pose proof (fs_start_disk v factory x s) as H. by rewrite E in H. Qed.
Print Assumptions C112_same_start.

(** A Start that cannot open the index (or the like storage) closes the delta storage,
    whose Close gives up without closing the file if writing fails. *)
Definition leaky_env : senv :=
  SEnv 16 16 16 (Shuffle _ (fun l => l) (fun l => reflexivity l)) (Shuffle _ (fun l => l) (fun l => reflexivity l))
    (OsFile true (repeat FOk 18 ++ [FErr 0])) (OsFile true []) (OsFile true []).
Definition leaky_disk : disk :=
  <[delta_path (case_ns true) := delta_image 1 [op_record 43 1 2]]> (<[index_path (case_ns true) := index_image 1 []]> ∅).

(** False: every attempt to start a namespace can leave one more file open, without
    end. *)
Theorem C112_failed_start_releases_refuted :
  exists v x d, forall n factory,
  let attempt s := fst (fs_start v factory x s) in
  (forall k, exists e, snd (fs_start v factory x (Nat.iter k attempt (OSys d []))) = Err e) /\
  o_open (Nat.iter n attempt (OSys d [])) = repeat (delta_path x) n.
Proof.
  exists leaky_env, (case_ns true), leaky_disk. intros n factory.
  assert (H : forall l, exists e, fs_start leaky_env factory (case_ns true) (OSys leaky_disk l) =
    (OSys leaky_disk (delta_path (case_ns true) :: l), Err e)).
  { intros l.
    assert (Ho : o_open (fst (fs_start leaky_env factory (case_ns true) (OSys leaky_disk l))) =
      delta_path (case_ns true) :: l) by (vm_compute; reflexivity).
    assert (Hd : o_disk (fst (fs_start leaky_env factory (case_ns true) (OSys leaky_disk l))) = leaky_disk).
    { apply (bool_decide_unpack _). vm_compute. exact I. }
    assert (He : exists e, snd (fs_start leaky_env factory (case_ns true) (OSys leaky_disk l)) = Err e)
      by (eexists; vm_compute; reflexivity).
    destruct He as [e He]. exists e. destruct (fs_start _ _ _ _) as [[d0 l0] r]. cbn in Ho, Hd, He. by subst. }
  cbv zeta. set (attempt := fun s => fst (fs_start _ _ _ s)).
  assert (Hn : forall n, Nat.iter n attempt (OSys leaky_disk []) = OSys leaky_disk (repeat (delta_path (case_ns true)) n)).
  { clear n. induction n as [|n IH]; [done|]. cbn [Nat.iter nat_rect repeat]. unfold Nat.iter in IH. rewrite IH.
    unfold attempt. by destruct (H (repeat (delta_path (case_ns true)) n)) as [e ->]. }
  split.
  - intros k. rewrite Hn. destruct (H (repeat (delta_path (case_ns true)) k)) as [e ->]. by exists e.
  - by rewrite Hn.
Qed.
Print Assumptions C112_failed_start_releases_refuted.

(** What is true, whatever the files contain and whatever the factory does: a Start
    that returns an error leaves no other file open than the delta file, and not that
    one if no access to it fails. *)
Theorem C112_failed_start_releases_partial :
  forall v factory x s s' e, fs_start v factory x s = (s', Err e) ->
  (o_open s' = o_open s \/ o_open s' = delta_path x :: o_open s) /\
  (of_faults (se_delta v) = [] -> o_open s' = o_open s).
Proof.
  intros v factory x s s' e. unfold fs_start, iobind. cbv zeta. fold (delta_path x) (index_path x) (recdb_path x).
  destruct (fs_open_delta v (delta_path x) s) as [s1 [ds|e1| |]] eqn:E1; try done.
  2:{ intros [= <- <-]. apply fs_open_delta_err in E1. auto. }
  apply fs_open_delta_ret in E1 as (O1 & Od & Hn & Hw).
  assert (Hd : forall t l, o_open t = delta_path x :: l ->
    (o_open (fs_close_delta v (delta_path x) ds t) = l \/
     o_open (fs_close_delta v (delta_path x) ds t) = delta_path x :: l) /\
    (of_faults (se_delta v) = [] -> o_open (fs_close_delta v (delta_path x) ds t) = l)).
  { intros t l Ht. unfold fs_close_delta.
    destruct (f_closed (ds_file (fst (d_close (se_bsz v) (se_dsh v) ds)))) eqn:Ec.
    - rewrite (settle_closed _ _ _ _ Ec Ht). auto.
    - rewrite settle_opened by done. split; [by right|]. intros Hf.
      rewrite untouched_close in Ec; [done|by apply Hw|done]. }
  destruct (fs_open_index v (index_path x) s1) as [s2 [is|e2| |]] eqn:E2; try done.
  2:{ intros [= <- <-]. apply fs_open_index_err in E2. apply Hd. by rewrite E2. }
  apply fs_open_index_ret in E2 as (O2 & Oi & Hcl).
  destruct (fs_open_like v factory (recdb_path x) s2) as [s3 [u|e3| |]] eqn:E3; try done.
  intros [= <- <-]. apply fs_open_like_err in E3.
  destruct (i_close_closes (se_bsz v) (se_ish v) is Hcl) as (Hic & _).
  unfold fs_close_index, settle. cbn [o_open]. rewrite Hic.
  assert (Hr : forall t, o_open t = index_path x :: delta_path x :: o_open s ->
    (release (index_path x) (o_open (fs_close_delta v (delta_path x) ds t)) = o_open s \/
     release (index_path x) (o_open (fs_close_delta v (delta_path x) ds t)) = delta_path x :: o_open s) /\
    (of_faults (se_delta v) = [] -> release (index_path x) (o_open (fs_close_delta v (delta_path x) ds t)) = o_open s)).
  { intros t Ht. unfold fs_close_delta, settle. cbn [o_open].
    destruct (f_closed (ds_file (fst (d_close (se_bsz v) (se_dsh v) ds)))) eqn:Ec; rewrite Ht.
    - rewrite (release_skip (delta_path x) (index_path x)) by (apply not_eq_sym, delta_index_ne).
      rewrite !release_head. auto.
    - rewrite release_head. split; [by right|]. intros Hf. rewrite untouched_close in Ec; [done|by apply Hw|done]. }
  apply Hr. by rewrite E3, O2, O1.
Qed.
Print Assumptions C112_failed_start_releases_partial.

(** A Start that succeeds holds each of the three files open once (if the factory of
    the like storages does not close the file it is given and then report success). *)
Theorem C112_started_holds :
  forall v factory x s s' r,
  (forall m f f', factory = Some m -> f_closed f = false -> m f = (f', Ret tt) -> f_closed f' = false) ->
  fs_start v factory x s = (s', Ret r) ->
  o_open s' = recdb_path x :: index_path x :: delta_path x :: o_open s.
Proof.
  intros v factory x s s' r Hm. unfold fs_start, iobind. cbv zeta. fold (delta_path x) (index_path x) (recdb_path x).
  destruct (fs_open_delta v (delta_path x) s) as [s1 [ds|e1| |]] eqn:E1; try done.
  apply fs_open_delta_ret in E1 as (O1 & _).
  destruct (fs_open_index v (index_path x) s1) as [s2 [is|e2| |]] eqn:E2; try done.
  apply fs_open_index_ret in E2 as (O2 & _).
  destruct (fs_open_like v factory (recdb_path x) s2) as [s3 [[]|e3| |]] eqn:E3; try done.
  intros [= <- <-]. by rewrite (fs_open_like_ret v factory (recdb_path x) s2 s3 E3 Hm), O2, O1.
Qed.
Print Assumptions C112_started_holds.

(** When the worker ends without I/O errors, whatever was added, it releases the delta
    and the index file. *)
Theorem C112_worker_end_releases :
  forall v x h ds is s l, session (se_bsz v) h ds -> is_closer is = true ->
  o_open s = recdb_path x :: index_path x :: delta_path x :: l ->
  o_open (fs_end v x ds is s) = recdb_path x :: l.
Proof.
  intros v x h ds is s l Hs Hc Ho. unfold fs_end. fold (delta_path x) (index_path x).
  destruct (i_close_closes (se_bsz v) (se_ish v) is Hc) as (Hic & _).
  destruct (proj2 C61_delta_close_releases_file_partial (se_bsz v) h ds (se_dsh v) Hs) as (ds' & Hd & Hdc).
  unfold fs_close_delta, fs_close_index, settle. cbn [o_open]. rewrite Hd. cbn [fst]. rewrite Hic, Hdc, Ho.
  rewrite (release_skip (index_path x) (recdb_path x)) by (apply not_eq_sym, index_recdb_ne).
  rewrite release_head, (release_skip (delta_path x) (recdb_path x)) by (apply not_eq_sym, delta_recdb_ne).
  by rewrite release_head.
Qed.
Print Assumptions C112_worker_end_releases.

(** A start that fails on a locked index, one whose factory refuses, and one that
    succeeds, on delta files with operations. *)
Example C112_case :
  let x := case_ns true in
  let d lock := <[delta_path x := delta_image 1 [op_record 43 1 2]]> (<[index_path x := index_image lock []]> ∅) in
  let go factory lock := let '(s, r) := fs_start case_env (Some factory) x (OSys (d lock) []) in
    (o_open s, match r with Ret _ => Ret tt | Err e => Err e | Panic => Panic | Hang => Hang end) in
  go (ioret tt) 1 = ([], Err (EWrap "failed to open delta storage" (EMsg "failed to load index"))) /\
  go (iofail EInvalid) 0 = ([], Err (EWrap "failed to open like storage" EInvalid)) /\
  go (ioret tt) 0 = ([recdb_path x; index_path x; delta_path x], Ret tt).
Proof. split; [|split]; by vm_compute. Qed.
