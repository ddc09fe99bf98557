(** Which files a namespace works on: C100, C101, C102, C103. *)
From Flocq Require Import IEEE754.BinarySingleNaN.
From Verif Require Import Base GoIO Lock Delta Index Similarity Naming Json Service LikeStart
  SpecFile SpecLock SpecDelta SpecIndex SpecNames DeltaSession IndexSession NamesFacts ServiceFacts
  StartFacts PropStart FilesFacts.

Definition is_path_of (x : lns) (p : list byte) : Prop :=
  p = delta_path x \/ p = index_path x \/ p = recdb_path x.

Lemma is_path_of_in x p : is_path_of x p <-> p ∈ ns_paths x.
Proof. unfold is_path_of, ns_paths, delta_path, index_path, recdb_path. cbn [map]. set_solver. Qed.

(** * C100 *)

(** A start looks at nothing but the three files of the namespace, and changes nothing
    else. *)
Theorem C100_start_is_local :
  forall v factory x d1 d2, (forall p, is_path_of x p -> d1 !! p = d2 !! p) ->
  snd (ns_start_with v factory x d1) = snd (ns_start_with v factory x d2) /\
  (forall p, is_path_of x p -> fst (ns_start_with v factory x d1) !! p = fst (ns_start_with v factory x d2) !! p) /\
  (forall p, ~ is_path_of x p -> fst (ns_start_with v factory x d1) !! p = d1 !! p).
Proof.
  intros v factory x d1 d2 H. destruct (ns_start_local v factory x d1 d2) as (Ho & Hs & Hp).
  { intros p Hp. by apply H, is_path_of_in. }
  split; [done|]. split.
  - intros p H'. by apply Hs, is_path_of_in.
  - intros p H'. apply Hp. by rewrite <- is_path_of_in.
Qed.
Print Assumptions C100_start_is_local.

(** So the list of namespaces is never touched. *)
Theorem C100_list_kept :
  forall v factory x d base, fst (ns_start_with v factory x d) !! json_path base = d !! json_path base.
Proof.
  intros v factory x d base. apply (ns_start_local v factory x d d); [done|]. apply ns_paths_not_json.
Qed.
Print Assumptions C100_list_kept.

(** Starting several namespaces (valid, different names; one base): each finds what it
    would find alone, and leaves its files as it would alone, whether the others
    succeed or fail. *)
Theorem C100_each_as_alone :
  forall v factory l d, NoDup (map ln_name l) -> Forall (fun x => name_ok (ln_name x)) l ->
  (forall x y, x ∈ l -> y ∈ l -> ln_base x = ln_base y) ->
  (forall x, x ∈ l -> goes_on (snd (ns_start_with (v x) (factory x) x d))) ->
  exists d', start_each (start_ns v factory) (map Some l) d = (d', Ret tt) /\
    (forall x p, x ∈ l -> is_path_of x p -> d' !! p = fst (ns_start_with (v x) (factory x) x d) !! p) /\
    (forall p, (forall x, x ∈ l -> ~ is_path_of x p) -> d' !! p = d !! p) /\
    (forall l1 x l2, l = l1 ++ x :: l2 ->
       let before := fst (start_each (start_ns v factory) (map Some l1) d) in
       snd (ns_start_with (v x) (factory x) x before) = snd (ns_start_with (v x) (factory x) x d)).
Proof.
  intros v factory l d Hn Ho Hb Hg.
  assert (Hf : forall x d, fst (start_ns v factory x d) = fst (ns_start_with (v x) (factory x) x d)).
  { intros x e. unfold start_ns. by destruct (ns_start_with _ _ _ e). }
  assert (Hg' : forall x, x ∈ l -> goes_on (snd (start_ns v factory x d))).
  { intros x Hx. rewrite start_ns_out. destruct (Hg x Hx) as [[a ->] | [e ->]]; [left|right]; by eexists. }
  destruct (start_each_apart v factory l d (conj Hn (conj Ho Hb)) Hg') as (d' & He & Hin & Hout).
  exists d'. split; [done|]. split; [|split].
  - intros x p Hx Hp. rewrite <- Hf. by apply (Hin x Hx), is_path_of_in.
  - intros p Hp. apply Hout. intros x Hx H. by apply (Hp x Hx), is_path_of_in.
  - intros l1 x l2 ->. cbv zeta.
    assert (Ha1 : all_apart l1).
    { split; [|split].
      - rewrite map_app in Hn. by apply NoDup_app in Hn as (? & _).
      - by apply Forall_app in Ho as [? _].
      - intros y z Hy Hz. apply Hb; apply elem_of_app; by left. }
    destruct (start_each_apart v factory l1 d Ha1) as (d1 & -> & _ & Hout1).
    { intros y Hy. apply Hg'. apply elem_of_app. by left. }
    cbn [fst]. apply ns_start_local. intros p Hp. apply Hout1. intros y Hy Hpy.
    rewrite map_app in Hn. apply NoDup_app in Hn as (_ & Hn & _). cbn [map] in Hn.
    rewrite Forall_forall in Ho.
    revert Hp. apply (ns_paths_apart y x p); [| | |intros E|done].
    + apply Hb; apply elem_of_app; [by left|right; left].
    + apply Ho, elem_of_app. by left.
    + apply Ho, elem_of_app. right; left.
    + apply (Hn (ln_name y)); [apply elem_of_list_fmap; by exists y|]. rewrite E. left.
Qed.
Print Assumptions C100_each_as_alone.

(** The order does not matter. *)
Theorem C100_any_order :
  forall v factory l l' d, NoDup (map ln_name l) -> Forall (fun x => name_ok (ln_name x)) l ->
  (forall x y, x ∈ l -> y ∈ l -> ln_base x = ln_base y) ->
  (forall x, x ∈ l -> goes_on (snd (ns_start_with (v x) (factory x) x d))) ->
  Permutation l l' ->
  start_each (start_ns v factory) (map Some l') d = start_each (start_ns v factory) (map Some l) d.
Proof.
  intros v factory l l' d Hn Ho Hb Hg P.
  destruct (C100_each_as_alone v factory l d Hn Ho Hb Hg) as (e & He & Hin & Hout & _).
  destruct (C100_each_as_alone v factory l' d) as (e' & He' & Hin' & Hout' & _).
  - by rewrite <- P.
  - by rewrite <- P.
  - intros x y. rewrite <- P. apply Hb.
  - intros x. rewrite <- P. apply Hg.
  - rewrite He, He'. f_equal. apply map_eq. intros p.
    destruct (decide (Exists (fun x => p ∈ ns_paths x) l)) as [H | H].
    + apply Exists_exists in H as (x & Hx & Hp). apply is_path_of_in in Hp.
      rewrite (Hin x p Hx Hp). apply (Hin' x p); [by rewrite <- P|done].
    + assert (H' : forall x, x ∈ l -> ~ is_path_of x p).
      { intros x Hx Hp. apply H, Exists_exists. exists x. by rewrite <- is_path_of_in. }
      rewrite (Hout p H'). apply Hout'. intros x. rewrite <- P. apply H'.
Qed.
Print Assumptions C100_any_order.

(** A case: two namespaces, one without files, one with. *)
Definition named (n : string) : lns :=
  new_like_namespace (LnsDto (ascii_bytes n) 1 (B754_zero false) (ascii_bytes "data/") true).

Example C100_case :
  let v _ := case_env in
  let factory _ := Some (ioret tt) in
  let l := [named "b"; case_ns true] in
  NoDup (map ln_name l) /\ Forall (fun x => name_ok (ln_name x)) l /\
  (forall x, x ∈ l -> goes_on (snd (ns_start_with (v x) (factory x) x (case_disk 0)))) /\
  fst (start_each (start_ns v factory) (map Some l) (case_disk 0)) !! delta_path (case_ns true) =
    Some (delta_image 1 [op_record 1 2 3]).
Proof.
  split; [by apply (bool_decide_unpack _)|]. split; [|split].
  - repeat constructor; apply name_regex_ok; reflexivity.
  - intros x Hx. apply elem_of_cons in Hx as [-> | Hx%elem_of_list_singleton].
    + right. eexists. vm_compute. reflexivity.
    + subst x. left. eexists. vm_compute. reflexivity.
  - vm_compute. reflexivity.
Qed.

(** * C101 *)

(** The namespaces and the files, side by side: the service methods act on the former
    (and on namespaces.json, inside [svc]), the storages on the latter. *)
Definition delete_then_create (w : wfate) (dto : create_request) : io (svc * disk) lns :=
  run (on_fst (delete_namespace w (cr_name dto)));
  on_fst (create_namespace w dto).

(** The contract: a namespace that was deleted and created again knows no operation and
    no position, whatever storages it starts with. *)
Definition deleted_data_is_gone : Prop :=
  forall v m w dto s d s' d' x ds is, obliging v ->
  delete_then_create w dto (s, d) = ((s', d'), Ret x) ->
  snd (ns_start_with v (Some m) x d') = Ret (ds, is) ->
  (forall user item, d_get ds user item = None) /\ forall id, i_get is id = None.

(** A service that has a namespace of this name (and no other of it) deletes and
    creates it. *)
Lemma delete_then_create_good dto s d l1 x l2 :
  sv_list s = wrap_ns (l1 ++ x :: l2) -> ln_name x = cr_name dto ->
  cr_name dto ∉ map ln_name (l1 ++ l2) -> ln_closed x = false -> cr_type dto = type_like ->
  exists s', delete_then_create WOk dto (s, d) = ((s', d), Ret (forged dto)).
Proof.
  intros E Hx Hn Hc Ht. rewrite map_app in Hn. apply not_elem_of_app in Hn as [Hn1 Hn2].
  destruct (delete_present WOk (cr_name dto) s l1 x l2 E Hx Hn1 Hc) as (l' & P & Hd).
  unfold delete_then_create, iobind, on_fst. rewrite Hd. cbn [saved].
  eexists. rewrite (create_good WOk dto _ l'); [done|done| |done].
  rewrite (Permutation_map ln_name P), map_app. apply not_elem_of_app. done.
Qed.

(** What holds: deleting and creating a namespace leaves all its files, and it starts
    with exactly the operations and positions it had before. *)
Theorem C101_deleted_data_returns_partial :
  forall w dto s d s' d' x, delete_then_create w dto (s, d) = ((s', d'), Ret x) ->
  d' = d /\ ln_name x = cr_name dto /\
  forall v m ops l, obliging v -> of_opens (se_recdb v) = true ->
  (forall f, exists f', m f = (f', Ret tt)) -> delta_at x ops d -> index_at x l d ->
  exists d2 ds is, ns_start_with v (Some m) x d' = (d2, Ret (ds, is)) /\
    (forall user item, d_get ds user item = last_add (map op_event ops) user item) /\
    (forall id, i_get is id = index_value (puts l) id None).
Proof.
  intros w dto s d s' d' x H.
  assert (Hd : d' = d).
  { revert H. unfold delete_then_create, iobind, on_fst.
    destruct (delete_namespace _ _ s) as [s1 [?|?| |]]; [|done..].
    destruct (create_namespace _ _ s1) as [s2 o]. by intros [= _ <- _]. }
  subst d'. split; [done|]. split.
  - revert H. unfold delete_then_create, iobind, on_fst.
    destruct (delete_namespace _ _ s) as [s1 [?|?| |]]; [|done..].
    unfold create_namespace, iobind, iolift, get_namespace_index_by_name.
    destruct (index_by_name 0 (sv_list s1) (cr_name dto)) as [i|e| |]; [|done..].
    destruct (0 <=? i); [done|]. unfold forge_namespace. case_bool_decide; [|done].
    destruct (save_namespaces w _) as [s2 [?|?| |]]; [|done..]. intros [= _ <-]. done.
  - intros v m ops l Hv Ho Hm Hd Hi.
    destruct (C57_start_partial v m x ops l d Hv Ho Hd Hi Hm) as (d2 & ds & is & tail & Hs & Hg & Hp & _).
    by exists d2, ds, is.
Qed.
Print Assumptions C101_deleted_data_returns_partial.

Definition case_dto (n : string) : create_request := CreateRequest (ascii_bytes n) type_like 0 (B754_zero false).
Definition forged_disk : disk :=
  <[index_path (forged (case_dto "a")) := index_image 0 [(5, 6)]]>
    {[ delta_path (forged (case_dto "a")) := delta_image 0 [op_record 1 2 3] ]}.

Lemma forged_disk_ok : delta_at (forged (case_dto "a")) [(1, 2, 3)] forged_disk /\
  index_at (forged (case_dto "a")) [(5, 6)] forged_disk.
Proof.
  split; [split; [by repeat constructor|split; done]|].
  right. split; [by repeat constructor|]. split; [done|]. by exists [].
Qed.

Definition case_svc : svc := Svc [Some (forged (case_dto "a"))] [] None [].

Theorem C101_deleted_data_is_gone_refuted : ~ deleted_data_is_gone.
Proof.
  intros H. destruct forged_disk_ok as [Hd Hi].
  destruct (delete_then_create_good (case_dto "a") case_svc forged_disk [] (forged (case_dto "a")) [])
    as (s' & E); [done|done|by apply not_elem_of_nil|done|done|].
  destruct (C101_deleted_data_returns_partial WOk _ _ _ _ _ _ E) as (_ & _ & Hs).
  destruct (Hs case_env (ioret tt) _ _ case_env_ok eq_refl (fun f => ex_intro _ f eq_refl) Hd Hi)
    as (d2 & ds & is & Es & Hg & _).
  destruct (H case_env (ioret tt) _ _ _ _ _ _ _ ds is case_env_ok E) as [Hn _].
  { exact (f_equal snd Es). }
  specialize (Hn 2 3). rewrite Hg in Hn. discriminate Hn.
Qed.
Print Assumptions C101_deleted_data_is_gone_refuted.

Example C101_case : exists s' x,
  delete_then_create WOk (case_dto "a") (case_svc, forged_disk) = ((s', forged_disk), Ret x) /\
  delta_at x [(1, 2, 3)] forged_disk /\ index_at x [(5, 6)] forged_disk.
Proof.
  destruct (delete_then_create_good (case_dto "a") case_svc forged_disk [] (forged (case_dto "a")) [])
    as (s' & E); [done|done|by apply not_elem_of_nil|done|done|].
  exists s', (forged (case_dto "a")). split; [exact E|]. exact forged_disk_ok.
Qed.

(** * C102 *)

(** The contract: a namespace that was renamed to a name without files still has its
    data. *)
Definition renaming_keeps_data : Prop :=
  forall v m x name ops l d, obliging v -> of_opens (se_recdb v) = true ->
  (forall f, exists f', m f = (f', Ret tt)) -> name_ok (ln_name x) -> name_ok name ->
  name <> ln_name x -> delta_at x ops d -> index_at x l d ->
  (forall p, is_path_of (set_name name x) p -> d !! p = None) ->
  exists d' ds is, ns_start_with v (Some m) (set_name name x) d = (d', Ret (ds, is)) /\
    (forall user item, d_get ds user item = last_add (map op_event ops) user item) /\
    (forall id, i_get is id = index_value (puts l) id None).

(** Under the new name no start succeeds. *)
Theorem C102_renamed_never_starts :
  forall v factory x name d, d !! delta_path (set_name name x) = None ->
  exists e, snd (ns_start_with v factory (set_name name x) d) = Err e.
Proof.
  intros v factory x name d H.
  destruct (C57_fresh_start_refuted v factory (set_name name x) d (or_introl H)) as (d' & e & -> & _).
  by exists e.
Qed.
Print Assumptions C102_renamed_never_starts.

Theorem C102_renaming_keeps_data_refuted : ~ renaming_keeps_data.
Proof.
  intros H. destruct start_case_hypotheses as (Hd & Hi & _).
  destruct (H case_env (ioret tt) (case_ns true) (ascii_bytes "b") [(1, 2, 3)] [(5, 6)] (case_disk 0)
    case_env_ok eq_refl (fun f => ex_intro _ f eq_refl)) as (d' & ds & is & E & _); [| |done|done|done| |].
  - apply name_regex_ok. reflexivity.
  - apply name_regex_ok. reflexivity.
  - intros p [-> | [-> | ->]]; reflexivity.
  - destruct (C102_renamed_never_starts case_env (Some (ioret tt)) (case_ns true) (ascii_bytes "b") (case_disk 0) eq_refl)
      as (e & E'). pose proof (eq_trans (eq_sym E') (f_equal snd E)) as F. discriminate F.
Qed.
Print Assumptions C102_renaming_keeps_data_refuted.

(** Under the name of files that another namespace left behind, it has their data. *)
Theorem C102_renamed_takes_foreign_data :
  forall v m x name ops l d, obliging v -> of_opens (se_recdb v) = true ->
  (forall f, exists f', m f = (f', Ret tt)) ->
  delta_at (set_name name x) ops d -> index_at (set_name name x) l d ->
  exists d' ds is, ns_start_with v (Some m) (set_name name x) d = (d', Ret (ds, is)) /\
    (forall user item, d_get ds user item = last_add (map op_event ops) user item) /\
    (forall id, i_get is id = index_value (puts l) id None).
Proof.
  intros v m x name ops l d Hv Ho Hm Hd Hi.
  destruct (C57_start_partial v m _ ops l d Hv Ho Hd Hi Hm) as (d2 & ds & is & tail & Hs & Hg & Hp & _).
  by exists d2, ds, is.
Qed.
Print Assumptions C102_renamed_takes_foreign_data.

(** What holds: nothing is lost.  Whatever the starts under other names did, going back
    to the first name gives the data back. *)
Theorem C102_renamed_back_partial :
  forall v m x ops l d, obliging v -> of_opens (se_recdb v) = true ->
  (forall f, exists f', m f = (f', Ret tt)) -> name_ok (ln_name x) -> delta_at x ops d -> index_at x l d ->
  forall attempts : list (list byte * senv * option (io file unit)),
  Forall (fun a => name_ok a.1.1 /\ a.1.1 <> ln_name x) attempts ->
  let after := foldl (fun d a => fst (ns_start_with a.1.2 a.2 (set_name a.1.1 x) d)) d attempts in
  (forall p, is_path_of x p -> after !! p = d !! p) /\
  exists d' ds is, ns_start_with v (Some m) x after = (d', Ret (ds, is)) /\
    (forall user item, d_get ds user item = last_add (map op_event ops) user item) /\
    (forall id, i_get is id = index_value (puts l) id None).
Proof.
  intros v m x ops l d Hv Ho Hm Hx Hd Hi attempts Ha after.
  assert (Hk : forall p, is_path_of x p -> after !! p = d !! p).
  { unfold after. clear Hd Hi after. revert d.
    induction Ha as [|[[name v'] factory] attempts [Hn Hne] Ha IH]; intros d p Hp; [done|].
    cbn [foldl fst snd] in *. rewrite (IH _ p Hp).
    apply (ns_start_local v' factory (set_name name x) d d); [done|].
    apply (ns_paths_apart x); [done|done|done| |by apply is_path_of_in]. cbn. done. }
  split; [done|].
  destruct (C57_start_partial v m x ops l after Hv Ho) as (d2 & ds & is & tail & Hs & Hg & Hp & _); [| |done|].
  - unfold delta_at. rewrite (Hk (delta_path x)); [done|by left].
  - unfold index_at. rewrite (Hk (index_path x)); [done|by right; left].
  - by exists d2, ds, is.
Qed.
Print Assumptions C102_renamed_back_partial.

(** * C103 *)

(** What a file system takes as the name of a file: at most [limit] bytes (255 on
    ext4, XFS, APFS, NTFS and most others). *)
Definition fits (limit : Z) (s : list byte) : Prop := Z.of_nat (length s) <= limit.

Definition every_name_fits : Prop := forall s k, name_ok s -> fits 255 (s ++ ns_file_ext k).

(** No limit is enough: names of every length are accepted. *)
Theorem C103_names_of_every_length :
  forall n, exists s, length s = S n /\ parse_namespace_name s = Ret s.
Proof.
  intros n. exists (97 :: replicate n 97). split; [cbn; by rewrite replicate_length|].
  apply parse_name_ok. exists 97, (replicate n 97). split; [done|]. split; [left; unfold lower_letter; lia|].
  apply Forall_replicate. left. left. unfold lower_letter. lia.
Qed.
Print Assumptions C103_names_of_every_length.

Theorem C103_every_name_fits_refuted : ~ every_name_fits.
Proof.
  intros H. destruct (C103_names_of_every_length 255) as (s & Hl & Hs).
  apply parse_name_ret in Hs as [_ Hs]. specialize (H s DeltaFile Hs). unfold fits in H.
  rewrite app_length, Hl in H. cbn in H. lia.
Qed.
Print Assumptions C103_every_name_fits_refuted.

(** The service accepts the name all the same, and lists the namespace. *)
Theorem C103_long_name_is_created :
  forall s dto, sv_list s = [] -> cr_type dto = type_like -> name_ok (cr_name dto) ->
  exists s', create_namespace WOk dto s = (s', Ret (forged dto)) /\ sv_list s' = [Some (forged dto)].
Proof.
  intros s dto E Ht Hn. eexists. split; [apply (create_good WOk dto s []); [done|by apply not_elem_of_nil|done]|done].
Qed.
Print Assumptions C103_long_name_is_created.

(** Exactly the names of at most six bytes less than the limit give file names that fit. *)
Theorem C103_which_fit_partial :
  forall limit s, fits (limit - 6) s <-> forall k, fits limit (s ++ ns_file_ext k).
Proof.
  intros limit s. unfold fits. split.
  - intros H k. rewrite app_length. assert (length (ns_file_ext k) = 6%nat) as -> by (by destruct k). lia.
  - intros H. specialize (H DeltaFile). rewrite app_length in H. cbn in H. lia.
Qed.
Print Assumptions C103_which_fit_partial.

(** Cases for C102 and C103. *)
Example C102_case :
  let answer r := match r with Ret (ds, is) => Ret (d_get ds 2 3, i_get is 5) | Err e => Err e | Panic => Panic | Hang => Hang end in
  let start x d := let '(d', r) := ns_start_with case_env (Some (ioret tt)) x d in (d', answer r) in
  let renamed := set_name (ascii_bytes "b") (case_ns true) in
  snd (start renamed (case_disk 0)) =
    Err (EWrap "failed to open delta storage" (EMsg "failed to check if file is locked")) /\
  snd (start (case_ns true) (fst (start renamed (case_disk 0)))) = Ret (Some 1, Some 6).
Proof. vm_compute. done. Qed.

Example C103_case :
  name_ok (ascii_bytes "my-namespace") /\ fits (255 - 6) (ascii_bytes "my-namespace") /\
  fits 255 (ascii_bytes "my-namespace" ++ ns_file_ext RecdbFile).
Proof. split; [apply name_regex_ok; reflexivity|]. unfold fits. cbn. lia. Qed.
