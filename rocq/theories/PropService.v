(** The namespace service and its HTTP interface: C44-C50, C65-C68, C70. *)
From Coq Require Import Reals Lra.
From Flocq Require Import Core.Core IEEE754.BinarySingleNaN.
From Verif Require Import Base GoIO Similarity SimilarityFacts Naming Json Service Api ServiceSession
  ServiceConc SpecNames NamesFacts ServiceFacts ServiceConcFacts ApiFacts.
#[local] Open Scope Z_scope.

(** Requests used in the examples. *)
Definition one : f32 := f32_of_int 1.
Definition ex_create (n : string) : create_request :=
  CreateRequest (ascii_bytes n) type_like 0 (B754_zero false).
Definition ex_fresh : svc := new_service [] None.

Lemma ex_fresh_running : running ex_fresh.
Proof. apply (running_boot (fun _ => Ret tt) [] None). reflexivity. Qed.

(** * C44 *)
Theorem C44_names_unique : forall s, running s -> NoDup (names s).
Proof.
  intros s H. apply running_inv in H as (l & E & N & _). by rewrite (names_wrap s l E).
Qed.
Print Assumptions C44_names_unique.

(** A case with a failed save, a rename and a deletion. *)
Example C44_case : exists s, running s /\
  names s = [ascii_bytes "c"; ascii_bytes "b"].
Proof.
  exists (after (SDelete WOk (ascii_bytes "x"))
         (after (SUpdate WOk (ascii_bytes "a") (UpdateRequest (ascii_bytes "x") 0 (B754_zero false)))
         (after (SCreate WOk (ex_create "c"))
         (after (SCreate WOk (ex_create "b"))
         (after (SCreate (WPart 3) (ex_create "b"))
         (after (SCreate WOk (ex_create "a")) ex_fresh)))))). split.
  - do 6 apply running_after. apply ex_fresh_running.
  - reflexivity.
Qed.

(** * C45 *)

(** The interleaving model agrees with the sequential one. *)
Theorem C45_alone_agrees : forall s d w, running s ->
  hsteps (s, HStart d) (fst (create_namespace w d s), HDone (snd (create_namespace w d s))).
Proof. intros s d w H. apply alone_agrees. by apply running_inv. Qed.
Print Assumptions C45_alone_agrees.

(** Two creations of one name both succeed. *)
Theorem C45_unique_refuted :
  ~ (forall s ds s' hs', running s -> csteps (s, map HStart ds) (s', hs') ->
     NoDup (names s')).
Proof.
  intros H. pose (x := forged (ex_create "a")).
  assert (N : NoDup (names (set_list (wrap_ns [x; x]) ex_fresh))).
  { apply (H ex_fresh [ex_create "a"; ex_create "a"] _ [HStored x; HStored x] ex_fresh_running).
    eapply csteps_step; [eapply (cs_handler _ _ 0); [reflexivity|
      eapply (hs_forge _ _ (-1)); [reflexivity|lia|reflexivity]]|].
    eapply csteps_step; [eapply (cs_handler _ _ 1); [reflexivity|
      eapply (hs_forge _ _ (-1)); [reflexivity|lia|reflexivity]]|].
    eapply csteps_step; [eapply (cs_handler _ _ 0); [reflexivity|apply hs_append]|].
    eapply csteps_step; [eapply (cs_handler _ _ 0); [reflexivity|apply hs_store]|].
    eapply csteps_step; [eapply (cs_handler _ _ 1); [reflexivity|apply hs_append]|].
    eapply csteps_step; [eapply (cs_handler _ _ 1); [reflexivity|apply hs_store]|].
    apply csteps_refl. }
  change (names _) with [ascii_bytes "a"; ascii_bytes "a"] in N.
  apply NoDup_cons in N as [N _]. apply N. by left.
Qed.
Print Assumptions C45_unique_refuted.

(** A creation that succeeded (and was saved) is lost. *)
Theorem C45_not_lost_refuted :
  ~ (forall s ds s' hs' i ns, running s -> csteps (s, map HStart ds) (s', hs') ->
     hs' !! i = Some (HDone (Ret ns)) -> Some ns ∈ sv_list s').
Proof.
  intros H. pose (a := forged (ex_create "a")). pose (b := forged (ex_create "b")).
  pose (s1 := set_list (wrap_ns [a]) ex_fresh).
  pose (s2 := set_json (marshal (wrap_ns [a])) s1).
  pose (s3 := set_list (wrap_ns [b]) s2).
  assert (L : Some a ∈ sv_list s3).
  { apply (H ex_fresh [ex_create "a"; ex_create "b"] s3 [HDone (Ret a); HStored b] 0%nat a
             ex_fresh_running); [|reflexivity].
    eapply csteps_step; [eapply (cs_handler _ _ 0); [reflexivity|
      eapply (hs_forge _ _ (-1)); [reflexivity|lia|reflexivity]]|].
    eapply csteps_step; [eapply (cs_handler _ _ 1); [reflexivity|
      eapply (hs_forge _ _ (-1)); [reflexivity|lia|reflexivity]]|].
    eapply csteps_step; [eapply (cs_handler _ _ 0); [reflexivity|apply hs_append]|].
    eapply csteps_step; [eapply (cs_handler _ _ 1); [reflexivity|apply hs_append]|].
    eapply csteps_step; [eapply (cs_handler _ _ 0); [reflexivity|apply hs_store]|].
    eapply csteps_step; [eapply (cs_handler _ _ 0); [reflexivity|apply hs_marshal]|].
    eapply csteps_step; [eapply (cs_handler _ _ 0); [reflexivity|apply hs_write]|].
    eapply csteps_step; [eapply (cs_handler _ _ 1); [reflexivity|apply hs_store]|].
    apply csteps_refl. }
  cbn in L. apply elem_of_list_singleton in L. discriminate L.
Qed.
Print Assumptions C45_not_lost_refuted.

(** In every interleaving the namespaces listed before stay, every other one was
    asked for, and names are unique as long as the requested ones are new and
    different from each other. *)
Theorem C45_concurrent_partial : forall s ds s' hs', running s ->
  csteps (s, map HStart ds) (s', hs') ->
  exists l0 l1, sv_list s = map Some l0 /\ sv_list s' = map Some (l0 ++ l1) /\
  (forall x, x ∈ l1 -> exists d, d ∈ ds /\ forge_namespace d = Ret x) /\
  (NoDup (map cr_name ds) -> (forall d, d ∈ ds -> cr_name d ∉ names s) -> NoDup (names s')).
Proof.
  intros s ds s' hs' R C. pose proof (running_inv s R) as (l0 & E & N & F).
  pose proof (csteps_inv l0 ds _ _ C (conc_start l0 ds s E)) as (Hlen & (js & El & Nj & Hj) & Hh).
  cbn [fst snd] in *. exists l0, (omap (fun j => forged <$> ds !! j) js).
  split; [done|]. split; [done|]. split.
  - intros x Hx. apply omap_lookup_in in Hx as (j & d & Hjs & Ed & ->).
    exists d. split; [by eapply elem_of_list_lookup_2|].
    destruct (Hj j Hjs) as (h & Eh & Sh).
    destruct (stored_forged _ _ _ _ _ (Hh j h Eh) Sh) as (d' & ns & Ed' & Ef).
    rewrite Ed in Ed'. injection Ed' as <-. rewrite Ef. by rewrite (forge_ret d ns Ef).
  - intros Nd Hn. rewrite (names_wrap s' _ El). rewrite map_app, omap_forged_names.
    rewrite (names_wrap s _ E) in Hn.
    apply NoDup_app. split; [done|]. split; [|by apply omap_names_nodup].
    intros n Hn0 Hn1. apply omap_lookup_in in Hn1 as (j & d & _ & Ed & ->).
    apply (Hn d); [by eapply elem_of_list_lookup_2|done].
Qed.
Print Assumptions C45_concurrent_partial.

(** The file after concurrent creations does not hold the list: an older save can come
    last. *)
Theorem C45_file_refuted :
  ~ (forall s ds s' hs', running s -> csteps (s, map HStart ds) (s', hs') ->
     Forall (fun h => exists ns, h = HDone (Ret ns)) hs' -> hs' <> [] ->
     sv_json s' = Some (marshal (sv_list s'))).
Proof.
  intros H. pose (a := forged (ex_create "a")). pose (b := forged (ex_create "b")).
  pose (s1 := set_list (wrap_ns [a]) ex_fresh).
  pose (s2 := set_list (wrap_ns [a; b]) s1).
  pose (s3 := set_json (marshal (wrap_ns [a; b])) s2).
  pose (s4 := set_json (marshal (wrap_ns [a])) s3).
  assert (L : sv_json s4 = Some (marshal (sv_list s4))).
  { apply (H ex_fresh [ex_create "a"; ex_create "b"] s4 [HDone (Ret a); HDone (Ret b)] ex_fresh_running);
      [|repeat constructor; by eexists|done].
    eapply csteps_step; [eapply (cs_handler _ _ 0); [reflexivity|
      eapply (hs_forge _ _ (-1)); [reflexivity|lia|reflexivity]]|].
    eapply csteps_step; [eapply (cs_handler _ _ 0); [reflexivity|apply hs_append]|].
    eapply csteps_step; [eapply (cs_handler _ _ 0); [reflexivity|apply hs_store]|].
    eapply csteps_step; [eapply (cs_handler _ _ 0); [reflexivity|apply hs_marshal]|].
    eapply csteps_step; [eapply (cs_handler _ _ 1); [reflexivity|
      eapply (hs_forge _ _ (-1)); [reflexivity|lia|reflexivity]]|].
    eapply csteps_step; [eapply (cs_handler _ _ 1); [reflexivity|apply hs_append]|].
    eapply csteps_step; [eapply (cs_handler _ _ 1); [reflexivity|apply hs_store]|].
    eapply csteps_step; [eapply (cs_handler _ _ 1); [reflexivity|apply hs_marshal]|].
    eapply csteps_step; [eapply (cs_handler _ _ 1); [reflexivity|apply hs_write]|].
    eapply csteps_step; [eapply (cs_handler _ _ 0); [reflexivity|apply hs_write]|].
    apply csteps_refl. }
  vm_compute in L. discriminate L.
Qed.
Print Assumptions C45_file_refuted.

(** What holds: as long as no write fails, the file holds a complete list, namely the
    list as it was at some moment, or it is untouched.  Missing: that it is the last one. *)
Theorem C45_file_partial : forall s ds s' hs',
  csteps (s, map HStart ds) (s', hs') ->
  Forall (fun h => h <> HDone (Err (EMsg "failed to write namespaces.json"))) hs' ->
  sv_json s' = sv_json s \/
  exists s1 hs1, csteps (s, map HStart ds) (s1, hs1) /\ csteps (s1, hs1) (s', hs') /\
    sv_json s' = Some (marshal (sv_list s1)).
Proof. exact file_is_a_past_list. Qed.
Print Assumptions C45_file_partial.

(** Two creations of different names, interleaved, that both end well. *)
Example C45_case : exists s' a b,
  csteps (ex_fresh, map HStart [ex_create "a"; ex_create "b"]) (s', [HDone (Ret a); HDone (Ret b)]) /\
  running ex_fresh /\ NoDup (map cr_name [ex_create "a"; ex_create "b"]) /\
  names s' = [ascii_bytes "b"; ascii_bytes "a"] /\ sv_json s' = Some (marshal (sv_list s')).
Proof.
  pose (a := forged (ex_create "a")). pose (b := forged (ex_create "b")).
  eexists _, a, b. split; [|split; [exact ex_fresh_running|split; [by apply (bool_decide_unpack _)|]]].
  - eapply csteps_step; [eapply (cs_handler _ _ 0); [reflexivity|
      eapply (hs_forge _ _ (-1)); [reflexivity|lia|reflexivity]]|].
    eapply csteps_step; [eapply (cs_handler _ _ 1); [reflexivity|
      eapply (hs_forge _ _ (-1)); [reflexivity|lia|reflexivity]]|].
    eapply csteps_step; [eapply (cs_handler _ _ 1); [reflexivity|apply hs_append]|].
    eapply csteps_step; [eapply (cs_handler _ _ 1); [reflexivity|apply hs_store]|].
    eapply csteps_step; [eapply (cs_handler _ _ 0); [reflexivity|apply hs_append]|].
    eapply csteps_step; [eapply (cs_handler _ _ 0); [reflexivity|apply hs_store]|].
    eapply csteps_step; [eapply (cs_handler _ _ 1); [reflexivity|apply hs_marshal]|].
    eapply csteps_step; [eapply (cs_handler _ _ 0); [reflexivity|apply hs_marshal]|].
    eapply csteps_step; [eapply (cs_handler _ _ 1); [reflexivity|apply hs_write]|].
    eapply csteps_step; [eapply (cs_handler _ _ 0); [reflexivity|apply hs_write]|].
    apply csteps_refl.
  - split; vm_compute; reflexivity.
Qed.

(** * C46 *)

(** UpdateNamespace of a listed namespace to an allowed name never returns: the
    name is changed in memory, nothing else is, and nothing is saved. *)
Theorem C46_update_never_returns : forall s w name d, running s ->
  name ∈ names s -> (ur_name d = name \/ ur_name d ∉ names s) ->
  exists l1 x l2, sv_list s = map Some (l1 ++ x :: l2) /\ ln_name x = name /\
    update_namespace w name d s =
    (Svc (map Some (l1 ++ Lns (ur_name d) (ln_max x) (ln_dislike x) (ln_base x)
                              (ln_has_factory x) (ln_closed x) :: l2)) (sv_base s) (sv_json s) (sv_gone s),
     Hang).
Proof.
  intros s w name d R Hn Hd. apply running_inv in R as (l & E & _).
  rewrite (names_wrap s l E) in Hn, Hd.
  destruct (split_by_name _ _ Hn) as (l1 & x & l2 & -> & Hx & Hf).
  exists l1, x, l2. split; [done|]. split; [done|].
  by apply update_hangs.
Qed.
Print Assumptions C46_update_never_returns.

Theorem C46_update_completes_refuted :
  ~ (forall s w name d, running s -> name ∈ names s ->
     (ur_name d = name \/ ur_name d ∉ names s) ->
     exists s' r, update_namespace w name d s = (s', r) /\ r <> Hang).
Proof.
  intros H.
  destruct (H (after (SCreate WOk (ex_create "a")) ex_fresh) WOk (ascii_bytes "a")
              (UpdateRequest (ascii_bytes "b") 5 (B754_zero false))) as (s' & r & E & Hr).
  - apply running_after, ex_fresh_running.
  - by left.
  - right. by apply (bool_decide_unpack _).
  - vm_compute in E. congruence.
Qed.
Print Assumptions C46_update_completes_refuted.

(** What holds: a request for a missing namespace or for a name that another one
    has is refused and changes nothing. *)
Theorem C46_update_refused_partial : forall s w name d, running s ->
  (name ∉ names s \/ (name ∈ names s /\ ur_name d <> name /\ ur_name d ∈ names s)) ->
  exists e, update_namespace w name d s = (s, Err e).
Proof.
  intros s w name d R H. apply running_inv in R as (l & E & _).
  rewrite (names_wrap s l E) in H. destruct H as [H|(H & Hne & Ht)].
  - rewrite (update_missing w name d s l E H). by eexists.
  - destruct (split_by_name _ _ H) as (l1 & x & l2 & -> & Hx & Hf).
    rewrite (update_taken w name d s l1 x l2 E Hx Hf Hne Ht). by eexists.
Qed.
Print Assumptions C46_update_refused_partial.

Definition ex_two : svc :=
  after (SCreate WOk (ex_create "b")) (after (SCreate WOk (ex_create "a")) ex_fresh).

Lemma ex_two_running : running ex_two.
Proof. apply running_after, running_after, ex_fresh_running. Qed.

(** Both kinds of refusal, and a change that does not return. *)
Example C46_case :
  names ex_two = [ascii_bytes "a"; ascii_bytes "b"] /\
  snd (update_namespace WOk (ascii_bytes "z") (UpdateRequest (ascii_bytes "y") 5 (B754_zero false)) ex_two)
    = Err (EMsg "namespace not found") /\
  (exists e, snd (update_namespace WOk (ascii_bytes "a") (UpdateRequest (ascii_bytes "b") 5 (B754_zero false)) ex_two)
    = Err e) /\
  snd (update_namespace WOk (ascii_bytes "a") (UpdateRequest (ascii_bytes "c") 5 (B754_zero false)) ex_two) = Hang.
Proof. split; [reflexivity|]. split; [reflexivity|]. split; [by eexists|]. reflexivity. Qed.

(** * C47 *)
Theorem C47_no_trace_refuted :
  ~ (forall s w d s' e, running s -> create_namespace w d s = (s', Err e) ->
     sv_list s' = sv_list s).
Proof.
  intros H. specialize (H ex_fresh WNoOpen (ex_create "a") _ _ ex_fresh_running eq_refl).
  discriminate H.
Qed.
Print Assumptions C47_no_trace_refuted.

(** A creation that fails for any reason but the save changes nothing; if only the
    save fails the namespace is listed all the same. *)
Theorem C47_failed_creation_partial : forall s w d s' e, running s ->
  create_namespace w d s = (s', Err e) ->
  (w = WOk -> s' = s) /\
  (s' <> s -> exists x, forge_namespace d = Ret x /\ sv_list s' = sv_list s ++ [Some x]) /\
  (cr_name d ∈ names s \/ cr_type d <> type_like -> s' = s).
Proof.
  intros s w d s' e R C. apply running_inv in R as (l & E & _).
  rewrite (names_wrap s l E).
  destruct (decide (cr_name d ∈ map ln_name l)) as [H|H].
  { rewrite (create_taken w d s l E H) in C. injection C as <- _. done. }
  destruct (decide (cr_type d = type_like)) as [T|T].
  - rewrite (create_good w d s l E H T) in C. split; [intros ->; done|]. split.
    + intros _. exists (forged d). split.
      { unfold forge_namespace. by rewrite bool_decide_true by done. }
      injection C as <- _. rewrite saved_list. cbn [sv_list set_list]. rewrite E.
      unfold wrap_ns. by rewrite map_app.
    + intros [?|?]; done.
  - rewrite (create_bad_type w d s l E H T) in C. injection C as <- _. done.
Qed.
Print Assumptions C47_failed_creation_partial.

Example C47_case : exists s' e,
  create_namespace (WPart 1) (ex_create "a") ex_fresh = (s', Err e) /\
  names s' = [ascii_bytes "a"] /\ sv_json s' = Some (ascii_bytes "[").
Proof. eexists _, _. split; [reflexivity|]. split; reflexivity. Qed.

(** * C48 *)

(** What a new process finds after the old one saved [s]. *)
Definition restarted (env : list byte) (s : svc) : svc * outcome unit :=
  load_namespaces (new_service env (sv_json (fst (save_namespaces WOk s)))).

Theorem C48_restart_refuted :
  ~ (forall s env, running s ->
     snd (restarted env s) = Ret tt /\ sv_list (fst (restarted env s)) = sv_list s).
Proof.
  intros H. destruct (H (after (SCreate WOk (ex_create "a")) ex_fresh) []) as [E _].
  - apply running_after, ex_fresh_running.
  - vm_compute in E. discriminate E.
Qed.
Print Assumptions C48_restart_refuted.

(** Exactly what happens: nothing but the number of namespaces is kept, and if
    there was any the new process gets an error and nil entries. *)
Theorem C48_restart_loses_everything : forall s env, running s ->
  exists n, length (sv_list s) = n /\
  sv_list (fst (restarted env s)) = replicate n None /\
  (n <> 0%nat -> exists e, snd (restarted env s) = Err e).
Proof.
  intros s env R. apply running_inv in R as (l & E & _). exists (length l). split.
  { rewrite E. unfold wrap_ns. by rewrite map_length. }
  unfold restarted. cbn [save_namespaces fst set_json sv_json]. rewrite E, load_saved.
  split; [done|]. cbn [snd]. destruct l; [done|]. intros _. by eexists.
Qed.
Print Assumptions C48_restart_loses_everything.

(** The only list that survives is the empty one. *)
Theorem C48_empty_list_partial : forall s env, running s ->
  (snd (restarted env s) = Ret tt /\ sv_list (fst (restarted env s)) = sv_list s)
  <-> sv_list s = [].
Proof.
  intros s env R. destruct (C48_restart_loses_everything s env R) as (n & Hn & Hl & He). split.
  - intros [Hr _]. destruct n; [by apply nil_length_inv|].
    destruct He as [e He]; [done|]. congruence.
  - intros E. split.
    + unfold restarted. cbn [save_namespaces fst set_json sv_json]. rewrite E. reflexivity.
    + rewrite Hl, E. rewrite E in Hn. cbn in Hn. by subst n.
Qed.
Print Assumptions C48_empty_list_partial.

Example C48_case : running ex_two /\ sv_list (fst (restarted [] ex_two)) = [None; None] /\
  sv_list (fst (restarted [] ex_fresh)) = [].
Proof. split; [apply ex_two_running|]. split; vm_compute; reflexivity. Qed.

(** * C67 *)

(** The shard that runs after a restart: any namespace created and saved before
    makes it crash while starting. *)
Theorem C67_restart_crashes : forall s start env, running s -> sv_list s <> [] ->
  snd (boot start env (sv_json (fst (save_namespaces WOk s)))) = Panic.
Proof.
  intros s start env R Hne. destruct (C48_restart_loses_everything s env R) as (n & Hn & Hl & _).
  unfold boot. unfold restarted in Hl. cbn [snd]. rewrite Hl.
  destruct n; [|done]. by apply nil_length_inv in Hn.
Qed.
Print Assumptions C67_restart_crashes.

Theorem C67_starts_refuted :
  ~ (forall start env disk, (forall x, start x <> Panic) ->
     snd (boot start env disk) <> Panic).
Proof. intros H. by apply (H (fun _ => Ret tt) [] (Some (ascii_bytes "[{}]"))). Qed.
Print Assumptions C67_starts_refuted.

(** It starts exactly when there is no file, or a file that is not JSON, or a JSON
    value other than a non-empty array. *)
Theorem C67_starts_partial : forall start env disk,
  (snd (boot start env disk) = Ret tt <->
   forall data j js, disk = Some data -> json_parse data <> Some (JArr (j :: js))) /\
  (snd (boot start env disk) = Ret tt \/ snd (boot start env disk) = Panic).
Proof.
  intros start env disk. unfold boot, load_namespaces, new_service. cbn [sv_json sv_list].
  destruct disk as [data|]; cbn [fst snd sv_list].
  2: { split; [|by left]. split; [|done]. intros _ data j js H. discriminate H. }
  destruct (json_parse data) as [[| | | |js|]|] eqn:P; cbn [fst snd sv_list set_list];
    try (split; [split; [intros _ ? ? ? [= <-]; congruence|done]|by left]).
  pose proof (decode_from_empty js) as D. destruct (decode_elems [] js) as [r ok]. cbn in D. subst r.
  cbn [fst snd sv_list set_list]. destruct js as [|j js].
  - split; [split; [intros _ ? ? ? [= <-]; congruence|done]|by left].
  - split; [|by right]. split; [done|]. intros H. by destruct (H data j js eq_refl).
Qed.
Print Assumptions C67_starts_partial.

(** A namespace that fails to start does not keep the others from starting: every one
    is started, in the order of the list. *)
Theorem C67_each_is_started : forall W (start : lns -> io W unit) l w,
  (forall x w, snd (start x w) <> Panic /\ snd (start x w) <> Hang) ->
  start_each start (map Some l) w = (fold_left (fun w x => fst (start x w)) l w, Ret tt).
Proof.
  intros W start l w H. revert w. induction l as [|x l IH]; intros w; [done|].
  cbn [map start_each fold_left]. destruct (H x w) as [H1 H2].
  destruct (start x w) as [w' []]; cbn in H1, H2 |- *; [apply IH|apply IH|done|done].
Qed.
Print Assumptions C67_each_is_started.

Example C67_each_case : let start := fun x w => (w ++ [ln_name x], Err (EMsg "failed")) in
  start_each start (map Some [forged (ex_create "a"); forged (ex_create "b")]) [] =
    ([ascii_bytes "a"; ascii_bytes "b"], Ret tt).
Proof. reflexivity. Qed.

(** * C49 *)

(** GET and PUT on a namespace's path, whatever it is, answer 400 and change
    nothing: no namespace can be addressed. *)
Theorem C49_always_400 : forall q seg s,
  rq_method q = MGet \/ rq_method q = MPut -> seg <> [] ->
  rq_path q = collection_path ++ [seg] ->
  serve q s = (s, Ret (Response 400 (PError (CError (EMsg "invalid namespace name"))))).
Proof.
  intros q seg s Hm Hs Hp. unfold serve, recovery.
  destruct (dispatch_cases q) as [(_ & P & _)|[(_ & P & _)|[(_ & _ & ->)|H]]].
  - rewrite Hp in P. discriminate P.
  - rewrite Hp in P. discriminate P.
  - done.
  - exfalso. unfold routes, dispatch in H. rewrite Hp in H. destruct seg as [|c seg]; [done|].
    destruct Hm as [M|M]; rewrite M in H; specialize (H ex_fresh); discriminate H.
Qed.
Print Assumptions C49_always_400.

Theorem C49_addresses_refuted :
  ~ (forall q seg s, running s -> rq_method q = MGet -> rq_path q = collection_path ++ [seg] ->
     seg ∈ names s ->
     exists s' x, serve q s = (s', Ret (Response 200 (PNamespace x))) /\ nr_name x = seg).
Proof.
  intros H.
  destruct (H (Request MGet (collection_path ++ [ascii_bytes "a"]) None None WOk WOk)
              (ascii_bytes "a") (after (SCreate WOk (ex_create "a")) ex_fresh))
    as (s' & x & E & _); try done.
  - apply running_after, ex_fresh_running.
  - by left.
Qed.
Print Assumptions C49_addresses_refuted.

(** What holds: they never answer with, or change, another namespace. *)
Theorem C49_harmless_partial : forall q seg s,
  rq_method q = MGet \/ rq_method q = MPut -> seg <> [] ->
  rq_path q = collection_path ++ [seg] ->
  fst (serve q s) = s /\ forall st x, snd (serve q s) <> Ret (Response st (PNamespace x)).
Proof.
  intros q seg s Hm Hs Hp. rewrite (C49_always_400 q seg s Hm Hs Hp). done.
Qed.
Print Assumptions C49_harmless_partial.

(** * C50 *)
Definition acceptable (s : svc) (b : create_body) : Prop :=
  api_name_ok (cb_name b) /\ cb_type b = ascii_bytes "like" /\
  factor_in_range (cb_dislike b) /\ cb_name b ∉ names s.

(** Every POST is answered 201 or 400; 201 only for an acceptable body; any other
    body is answered 400 and changes nothing.  Conversely an acceptable body whose
    factor is not 0 is answered 201 if the list can be saved. *)
Theorem C50_create_validates : forall q s, running s ->
  rq_method q = MPost -> rq_path q = collection_path ->
  (forall b, rq_create q = Some b -> 0 <= cb_max b) ->
  exists s' st body, serve q s = (s', Ret (Response st body)) /\ (st = 201 \/ st = 400) /\
  (st = 201 -> exists b, rq_create q = Some b /\ acceptable s b) /\
  ((forall b, rq_create q = Some b -> ~ acceptable s b) -> st = 400 /\ s' = s) /\
  (forall b, rq_create q = Some b -> acceptable s b -> B2R (cb_dislike b) <> 0%R ->
   rq_w1 q = WOk -> st = 201).
Proof.
  intros q s R Hm Hp Hmax. apply running_inv in R as (l & E & _).
  assert (D : dispatch (routes q) q = handle_create (rq_w1 q) (rq_create q)).
  { unfold routes, dispatch. rewrite Hm, Hp. reflexivity. }
  unfold serve, recovery. rewrite D. clear D.
  assert (Refused : forall P : Prop,
    (forall b, rq_create q = Some b -> acceptable s b -> B2R (cb_dislike b) <> 0%R -> False) ->
    forall c, exists s' st body, (s, Ret (Response 400 (PError c))) = (s', Ret (Response st body)) /\
    (st = 201 \/ st = 400) /\ (st = 201 -> P) /\
    ((forall b, rq_create q = Some b -> ~ acceptable s b) -> st = 400 /\ s' = s) /\
    (forall b, rq_create q = Some b -> acceptable s b -> B2R (cb_dislike b) <> 0%R ->
     rq_w1 q = WOk -> st = 201)).
  { intros P H c. exists s, 400, (PError c). split; [done|]. split; [by right|]. split; [done|].
    split; [done|]. intros b Eb A Hnz _. by destruct (H b Eb A Hnz). }
  unfold handle_create. destruct (rq_create q) as [b|] eqn:Eb; [|by apply Refused].
  specialize (Hmax b eq_refl). pose proof (binding_and_domain b Hmax) as B.
  rewrite <- create_errors_nil in B.
  assert (Acc : forall b', Some b = Some b' -> acceptable s b' -> B2R (cb_dislike b') <> 0%R ->
            create_errors b = [] /\ exists d, create_to_domain b = Ret d).
  { intros b' [= <-] (A1 & A2 & A3 & A4) Hnz. apply B. split; [done|]. split; [done|].
    split; [done|]. apply required_float_val; [apply A3|done]. }
  destruct (create_errors b) eqn:Hb.
  2: { apply Refused. intros b' E' A Hnz. by destruct (Acc b' E' A Hnz). }
  destruct (create_to_domain b) as [d|e| |] eqn:Hd.
  2: { apply Refused. intros b' E' A Hnz. destruct (Acc b' E' A Hnz) as (_ & d & [=]). }
  2,3: by unfold create_to_domain in Hd;
       destruct (parse_namespace_name (cb_name b)), (parse_namespace_type (cb_type b)).
  destruct (proj1 B (conj eq_refl (ex_intro _ d eq_refl))) as (A1 & A2 & A3 & A4).
  destruct (to_domain_eq _ _ Hd) as [Ed _].
  unfold or_else at 1, iolift. unfold or_else.
  destruct (decide (cr_name d ∈ map ln_name l)) as [Hin|Hin].
  - rewrite (create_taken (rq_w1 q) d s l E Hin). apply Refused.
    intros b' [= <-] (_ & _ & _ & N) _. rewrite (names_wrap s l E) in N.
    rewrite Ed in Hin. done.
  - rewrite (create_good (rq_w1 q) d s l E Hin) by (by rewrite Ed).
    assert (A : acceptable s b).
    { split; [done|]. split; [done|]. split; [done|]. rewrite (names_wrap s l E).
      rewrite Ed in Hin. done. }
    destruct (rq_w1 q); eexists _, _, _; (split; [reflexivity|]); cbn [fst snd].
    + split; [by left|]. split; [intros _; by exists b|].
      split; [intros H; by destruct (H b eq_refl)|done].
    + split; [by right|]. split; [done|].
      split; [intros H; by destruct (H b eq_refl)|done].
    + split; [by right|]. split; [done|].
      split; [intros H; by destruct (H b eq_refl)|done].
Qed.
Print Assumptions C50_create_validates.

Definition post (b : create_body) : request :=
  Request MPost collection_path (Some b) None WOk WOk.

Example C50_case :
  (exists s', serve (post (CreateBody (ascii_bytes "a1") (ascii_bytes "like") 0 one)) ex_fresh =
     (s', Ret (Response 201 (PNamespace (NsResponse (ascii_bytes "a1") (ascii_bytes "like") 1000))))) /\
  acceptable ex_fresh (CreateBody (ascii_bytes "a1") (ascii_bytes "like") 0 one) /\
  serve (post (CreateBody (ascii_bytes "1a") (ascii_bytes "like") 0 one)) ex_fresh =
    (ex_fresh, Ret (Response 400 (PError (CFields
      [FieldError (ascii_bytes "name") (ascii_bytes "invalid namespace name")])))).
Proof.
  split; [by eexists|]. split; [|reflexivity]. split; [|split; [done|split]].
  - exists 97, [49]. split; [done|]. split; [unfold lower_letter; lia|].
    constructor; [right; unfold digit; lia|constructor].
  - destruct f32_one_val as [F V]. split; [done|]. cbn [cb_dislike]. unfold one. rewrite V. lra.
  - by apply (bool_decide_unpack _).
Qed.

(** * C65 *)
Theorem C65_created_is_listed : forall q s s' body lq, running s ->
  rq_method q = MPost -> rq_path q = collection_path ->
  serve q s = (s', Ret (Response 201 body)) ->
  rq_method lq = MGet -> rq_path lq = collection_path ->
  exists b before r, rq_create q = Some b /\
    r = NsResponse (cb_name b) (ascii_bytes "like") (if cb_max b =? 0 then 1000 else cb_max b) /\
    body = PNamespace r /\
    serve lq s = (s, Ret (Response 200 (PList before))) /\
    serve lq s' = (s', Ret (Response 200 (PList (before ++ [r])))).
Proof.
  intros q s s' body lq R Hm Hp H Lm Lp. apply running_inv in R as (l & E & _).
  assert (D : dispatch (routes q) q = handle_create (rq_w1 q) (rq_create q)).
  { unfold routes, dispatch. rewrite Hm, Hp. reflexivity. }
  assert (DL : dispatch (routes lq) lq = handle_list).
  { unfold routes, dispatch. rewrite Lm, Lp. reflexivity. }
  unfold serve, recovery in H. rewrite D in H.
  destruct (handle_create_cases (rq_w1 q) (rq_create q) s)
    as [[c H0]|(b & d & Eb & Hb & Hd & H0)]; rewrite H0 in H; [done|].
  destruct (to_domain_eq _ _ Hd) as [Ed _].
  exists b, (map new_namespace_response l), (new_namespace_response (forged d)).
  split; [done|]. split; [by rewrite Ed|].
  destruct (decide (cr_name d ∈ map ln_name l)) as [Hin|Hin].
  { by rewrite (create_taken (rq_w1 q) d s l E Hin) in H. }
  rewrite (create_good (rq_w1 q) d s l E Hin) in H by (by rewrite Ed).
  destruct (rq_w1 q); try done. injection H as <- <-. split; [done|].
  unfold serve, recovery. rewrite DL. split.
  - by rewrite (handle_list_ok s l E).
  - rewrite (handle_list_ok _ (l ++ [forged d])) by reflexivity. by rewrite map_app.
Qed.
Print Assumptions C65_created_is_listed.

Example C65_case :
  let s := after (SCreate WOk (ex_create "z")) ex_fresh in
  running s /\
  exists s' body, serve (post (CreateBody (ascii_bytes "a") (ascii_bytes "like") 7 one)) s =
    (s', Ret (Response 201 body)) /\ length (sv_list s') = 2%nat.
Proof.
  split; [apply running_after, ex_fresh_running|]. eexists _, _. split; reflexivity.
Qed.

(** * C66 *)
Theorem C66_zero_factor_refuted :
  ~ (forall b s, running s -> acceptable s b ->
     exists s' body, serve (post b) s = (s', Ret (Response 201 body))).
Proof.
  intros H. pose (b := CreateBody (ascii_bytes "a") (ascii_bytes "like") 1 (B754_zero false)).
  destruct (H b ex_fresh ex_fresh_running) as (s' & body & E).
  - split; [|split; [done|split]].
    + exists 97, []. split; [done|]. split; [unfold lower_letter; lia|constructor].
    + split; [done|]. cbn. lra.
    + by apply (bool_decide_unpack _).
  - discriminate E.
Qed.
Print Assumptions C66_zero_factor_refuted.

(** A factor of 0 is always refused; every other factor in the range is accepted. *)
Theorem C66_nonzero_factor_partial : forall b s, running s -> acceptable s b -> 0 <= cb_max b ->
  ((exists s' body, serve (post b) s = (s', Ret (Response 201 body))) <->
   B2R (cb_dislike b) <> 0%R).
Proof.
  intros b s R A Hmax.
  destruct (C50_create_validates (post b) s R eq_refl eq_refl) as (s' & st & body & E & H1 & H2 & H3 & H4).
  { intros b' [= <-]. done. }
  split.
  - intros (s'' & body' & E') Hz. rewrite E in E'. injection E' as <- -> <-.
    apply running_inv in R as (l & El & _).
    unfold serve, recovery in E.
    change (dispatch (routes (post b)) (post b)) with (handle_create WOk (Some b)) in E.
    unfold handle_create in E. destruct (create_errors b) eqn:B; [|done].
    apply create_errors_nil in B. unfold create_binding in B. rewrite !andb_true_iff in B.
    destruct B as [_ [B _]]. apply required_float_val in B; [done|]. apply A.
  - intros Hnz. exists s', body. rewrite E. by rewrite (H4 b eq_refl A Hnz eq_refl).
Qed.
Print Assumptions C66_nonzero_factor_partial.

Example C66_case : let b := CreateBody (ascii_bytes "a") (ascii_bytes "like") 1 one in
  acceptable ex_fresh b /\ B2R (cb_dislike b) <> 0%R.
Proof.
  cbn zeta. destruct f32_one_val as [F V]. fold one in F, V.
  split; [|cbn [cb_dislike]; rewrite V; lra]. split; [|split; [done|split]].
  - exists 97, []. split; [done|]. split; [unfold lower_letter; lia|constructor].
  - cbn [cb_dislike]. split; [done|]. rewrite V. lra.
  - by apply (bool_decide_unpack _).
Qed.

(** * C68 *)
Theorem C68_delete : forall s w name, running s ->
  (name ∉ names s -> exists e, delete_namespace w name s = (s, Err e)) /\
  (name ∈ names s -> exists s' r, delete_namespace w name s = (s', r) /\
     (r = Ret tt \/ exists e, r = Err e) /\ (w = WOk -> r = Ret tt) /\
     name ∉ names s' /\
     exists x, ln_name x = name /\ Permutation (sv_list s) (Some x :: sv_list s') /\
       exists y, sv_gone s' = sv_gone s ++ [Some y] /\ ln_name y = name /\ ln_closed y = true).
Proof.
  intros s w name R. apply running_inv in R as (l & E & N & F). rewrite (names_wrap s l E). split.
  - intros H. rewrite (delete_missing w name s l E H). by eexists.
  - intros H. destruct (split_by_name _ _ H) as (l1 & x & l2 & -> & Hx & Hn).
    pose proof F as F'. apply Forall_app in F' as [F1 F2]. apply Forall_cons in F2 as [F2 F3].
    destruct (delete_present w name s l1 x l2 E Hx Hn (proj1 F2)) as (l' & P & ->).
    eexists _, _. split; [reflexivity|]. split; [destruct w; [by left|by right; eexists..]|].
    split; [by intros ->|].
    set (s1 := set_gone (Some (set_closed x)) (set_list (wrap_ns l') s)).
    assert (El : sv_list (saved w s1) = wrap_ns l') by (rewrite saved_list; done).
    split.
    + rewrite (names_wrap _ _ El). rewrite P, map_app, not_elem_of_app. split; [done|].
      rewrite map_app in N. cbn [map] in N.
      apply NoDup_app in N as (_ & _ & N). apply NoDup_cons in N as [N _]. by rewrite <- Hx.
    + exists x. split; [done|]. rewrite El, E. unfold wrap_ns.
      rewrite (Permutation_map Some P), !map_app. cbn [map].
      split; [symmetry; apply Permutation_middle|].
      exists (set_closed x). by rewrite saved_gone.
Qed.
Print Assumptions C68_delete.

(** At all times the listed namespaces are the ones that were not stopped: no worker
    goes on for a namespace that is off the list, and none is ended for one that is on. *)
Theorem C68_the_deleted_are_stopped : forall s, running s ->
  Forall (fun o => exists x, o = Some x /\ ln_closed x = false) (sv_list s) /\
  Forall (fun o => exists x, o = Some x /\ ln_closed x = true) (sv_gone s).
Proof.
  intros s R. split; [|by apply running_stopped]. apply running_inv in R as (l & -> & _ & F).
  unfold wrap_ns. apply Forall_map. eapply Forall_impl; [exact F|]. cbn. intros x [Hx _]. by exists x.
Qed.
Print Assumptions C68_the_deleted_are_stopped.

(** The name can be used again at once. *)
Theorem C68_name_is_free_again : forall s w name d w', running s -> name ∈ names s ->
  cr_name d = name -> cr_type d = type_like ->
  exists l s', sv_list s' = l ++ [Some (forged d)] /\
    fst (create_namespace w' d (fst (delete_namespace w name s))) = s'.
Proof.
  intros s w name d w' R Hin Hd Ht.
  pose proof (running_after (SDelete w name) s R) as R'. cbn [after] in R'.
  destruct (proj2 (C68_delete s w name R) Hin) as (s1 & r & E1 & _ & _ & Hfree & _).
  rewrite E1 in R' |- *. cbn [fst] in R' |- *.
  apply running_inv in R' as (l & E & _). rewrite (names_wrap s1 l E) in Hfree.
  exists (wrap_ns l). eexists. split; [|reflexivity].
  rewrite (create_good w' d s1 l E) by (by rewrite ?Hd). cbn [fst]. rewrite saved_list.
  cbn [sv_list set_list]. unfold wrap_ns. by rewrite map_app.
Qed.
Print Assumptions C68_name_is_free_again.

Example C68_case :
  let s := after (SCreate WOk (ex_create "b")) (after (SCreate WOk (ex_create "a")) ex_fresh) in
  running s /\ ascii_bytes "a" ∈ names s /\ ascii_bytes "x" ∉ names s /\
  length (sv_gone (after (SDelete WOk (ascii_bytes "a")) s)) = 1%nat.
Proof.
  split; [do 2 apply running_after; apply ex_fresh_running|]. split; [by left|].
  split; [by apply (bool_decide_unpack _)|reflexivity].
Qed.

(** * C70 *)
Theorem C70_every_request_answered : forall q s, running s ->
  exists s' st body, serve q s = (s', Ret (Response st body)) /\
    (st = 200 \/ st = 201 \/ st = 400 \/ st = 404).
Proof.
  intros q s R. apply running_inv in R as (l & E & _). unfold serve, recovery.
  destruct (dispatch_cases q) as [(_ & _ & ->)|[(_ & _ & ->)|[(_ & _ & ->)| -> ]]].
  - rewrite (handle_list_ok s l E). eexists _, _, _. split; [reflexivity|]. by left.
  - destruct (handle_create_cases (rq_w1 q) (rq_create q) s) as [[c ->]|(b & d & _ & _ & Hd & ->)].
    { eexists _, _, _. split; [reflexivity|]. tauto. }
    destruct (to_domain_eq _ _ Hd) as [Ed _].
    destruct (decide (cr_name d ∈ map ln_name l)) as [Hin|Hin].
    + rewrite (create_taken (rq_w1 q) d s l E Hin). eexists _, _, _. split; [reflexivity|]. tauto.
    + rewrite (create_good (rq_w1 q) d s l E Hin) by (by rewrite Ed).
      destruct (rq_w1 q); eexists _, _, _; (split; [reflexivity|]); tauto.
  - eexists _, _, _. split; [reflexivity|]. tauto.
  - eexists _, _, _. split; [reflexivity|]. tauto.
Qed.
Print Assumptions C70_every_request_answered.
