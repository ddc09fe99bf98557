(** Proofs about concurrent creations. *)
From Verif Require Import Base GoIO Similarity Naming Json Service ServiceSession SpecNames
  ServiceFacts ServiceConc.

(** A handler running alone does what [create_namespace] does. *)
Inductive hsteps : svc * hstate -> svc * hstate -> Prop :=
| hsteps_refl c : hsteps c c
| hsteps_step c1 c2 c3 : hstep c1 c2 -> hsteps c2 c3 -> hsteps c1 c3.

Lemma alone_agrees s d w :
  svc_inv s ->
  hsteps (s, HStart d) (fst (create_namespace w d s), HDone (snd (create_namespace w d s))).
Proof.
  intros (l & E & N & F).
  destruct (decide (cr_name d ∈ map ln_name l)) as [H|H].
  - rewrite (create_taken w d s l E H). eapply hsteps_step; [|apply hsteps_refl].
    destruct (split_by_name _ _ H) as (l1 & x & l2 & El & Hx & Hn).
    eapply (hs_taken s d (0 + Z.of_nat (length l1))); [|lia].
    rewrite E, El, <- Hx. apply index_present. by rewrite Hx.
  - assert (A : index_by_name 0 (sv_list s) (cr_name d) = Ret (-1))
      by (rewrite E; by apply index_absent).
    destruct (decide (cr_type d = type_like)) as [T|T].
    + rewrite (create_good w d s l E H T). cbn [fst snd].
      eapply hsteps_step; [eapply (hs_forge s d (-1) (forged d)); [done|lia|]|].
      { unfold forge_namespace. by rewrite bool_decide_true by done. }
      eapply hsteps_step; [apply hs_append|].
      eapply hsteps_step; [apply hs_store|].
      eapply hsteps_step; [apply hs_marshal|].
      replace (sv_list s ++ [Some (forged d)]) with (wrap_ns (l ++ [forged d]))
        by (rewrite E; unfold wrap_ns; by rewrite map_app).
      destruct w; (eapply hsteps_step; [|apply hsteps_refl]); cbn [saved].
      * apply hs_write.
      * apply hs_write_fails.
      * apply hs_write_part.
    + rewrite (create_bad_type w d s l E H T). eapply hsteps_step; [|apply hsteps_refl].
      eapply (hs_forge_fails s d (-1)); [done|lia|].
      unfold forge_namespace. by rewrite bool_decide_false by done.
Qed.

(** * All interleavings *)

(** Has the handler already stored its namespace? *)
Definition stored_already (h : hstate) : Prop :=
  match h with
  | HStored _ | HMarshalled _ _ => True
  | HDone (Ret _) => True
  | HDone (Err e) => e = EMsg "failed to write namespaces.json"
  | _ => False
  end.

(** The list made of the initial one and the namespaces of the handlers [js]. *)
Definition built (l0 : list lns) (ds : list create_request) (js : list nat) : list (option lns) :=
  wrap_ns (l0 ++ omap (fun j => forged <$> ds !! j) js).

Definition handler_inv (l0 : list lns) (ds : list create_request) (hs : list hstate)
    (i : nat) (h : hstate) : Prop :=
  exists d, ds !! i = Some d /\
  match h with
  | HStart d' => d' = d
  | HForged ns | HStored ns | HMarshalled _ ns => forge_namespace d = Ret ns
  | HAppended l ns => forge_namespace d = Ret ns /\ exists js, l = built l0 ds (js ++ [i]) /\ NoDup js /\
      forall j, j ∈ js -> exists h', hs !! j = Some h' /\ stored_already h'
  | HDone (Ret ns) => forge_namespace d = Ret ns
  | HDone (Err e) =>
    e = EMsg "failed to write namespaces.json" -> exists ns, forge_namespace d = Ret ns
  | HDone _ => True
  end.

Definition conc_inv (l0 : list lns) (ds : list create_request) (c : svc * list hstate) : Prop :=
  length (snd c) = length ds /\
  (exists js, sv_list (fst c) = built l0 ds js /\ NoDup js /\
     forall j, j ∈ js -> exists h, snd c !! j = Some h /\ stored_already h) /\
  forall i h, snd c !! i = Some h -> handler_inv l0 ds (snd c) i h.

Lemma forge_ret d ns : forge_namespace d = Ret ns -> ns = forged d.
Proof. unfold forge_namespace. case_bool_decide; [|done]. by intros [= <-]. Qed.

(** Once stored, always stored; and other handlers are untouched. *)
Lemma stored_kept s h s' h' : hstep (s, h) (s', h') -> stored_already h -> stored_already h'.
Proof. by inversion 1; subst; cbn. Qed.

Lemma stored_mono (hs : list hstate) (i : nat) (h h' : hstate) (js : list nat) :
  hs !! i = Some h -> (stored_already h -> stored_already h') ->
  (forall j, j ∈ js -> exists h, hs !! j = Some h /\ stored_already h) ->
  forall j, j ∈ js -> exists h, <[i:=h']> hs !! j = Some h /\ stored_already h.
Proof.
  intros Hi Hk H j Hj. destruct (H j Hj) as (h0 & E & S0).
  destruct (decide (j = i)) as [->|Hne].
  - rewrite Hi in E. injection E as <-. exists h'. split; [|by apply Hk].
    apply list_lookup_insert. by eapply lookup_lt_Some.
  - exists h0. by rewrite list_lookup_insert_ne by done.
Qed.

Lemma cstep_inv l0 ds c c' : cstep c c' -> conc_inv l0 ds c -> conc_inv l0 ds c'.
Proof.
  intros Hst (Hlen & (js & El & Nj & Hj) & Hh).
  destruct Hst as [s hs i h s' h' Hi Hs]. cbn [fst snd] in *.
  pose proof (stored_kept _ _ _ _ Hs) as Hk.
  pose proof (stored_mono hs i h h') as Mono.
  destruct (Hh i h Hi) as (d & Ed & Hd).
  assert (Others : forall k g, <[i:=h']> hs !! k = Some g -> k <> i ->
                   handler_inv l0 ds (<[i:=h']> hs) k g).
  { intros k g Hg Hne. rewrite list_lookup_insert_ne in Hg by done.
    destruct (Hh k g Hg) as (dk & Edk & Hdk). exists dk. split; [done|].
    destruct g as [| |l ns| | |]; try done. destruct Hdk as (Ef & ks & -> & Nk & Hks).
    split; [done|]. exists ks. split; [done|]. split; [done|]. by apply Mono. }
  split; [cbn [snd]; by rewrite insert_length|]. split.
  - cbn [fst snd]. (* the list *)
    inversion Hs; subst; cbn [sv_list set_list set_json];
      try (exists js; split; [done|]; split; [done|]; by apply Mono).
    cbn in Hd. destruct Hd as (_ & ks & -> & Nk & Hks). exists (ks ++ [i]). split; [done|]. split.
    + apply NoDup_app. split; [done|]. split; [|apply NoDup_singleton].
      intros j Hjk Hji. apply elem_of_list_singleton in Hji as ->.
      destruct (Hks i Hjk) as (g & Eg & Sg). rewrite Hi in Eg. injection Eg as <-. done.
    + intros j Hjk. apply elem_of_app in Hjk as [Hjk|Hjk]; [by apply (Mono ks)|].
      apply elem_of_list_singleton in Hjk as ->. exists (HStored ns). split; [|done].
      apply list_lookup_insert. by eapply lookup_lt_Some.
  - cbn [snd]. intros k g Hg. destruct (decide (k = i)) as [->|Hne]; [|by apply Others].
    rewrite list_lookup_insert in Hg by (by eapply lookup_lt_Some).
    injection Hg as <-. exists d. split; [done|].
    inversion Hs; subst; cbn in Hd |- *; try done.
    + unfold forge_namespace in *. intros ->. case_bool_decide; done.
    + by subst.
    + split; [done|]. exists js. split.
      * apply forge_ret in Hd. rewrite El. unfold built, wrap_ns.
        rewrite omap_app. cbn [omap list_omap]. rewrite Ed. cbn.
        rewrite app_assoc, !map_app. by rewrite Hd.
      * split; [done|]. by apply Mono.
    + by destruct Hd.
    + by exists ns.
    + by exists ns.
Qed.

(** A handler that stored something forged it. *)
Lemma stored_forged l0 ds hs i h :
  handler_inv l0 ds hs i h -> stored_already h ->
  exists d ns, ds !! i = Some d /\ forge_namespace d = Ret ns.
Proof.
  intros (d & Ed & H) Sh. exists d. destruct h as [| | |ns|data ns|[ns|e| |]]; try done.
  - by exists ns.
  - by exists ns.
  - by exists ns.
  - destruct (H Sh) as [ns Hns]. by exists ns.
Qed.

Lemma csteps_inv l0 ds c c' : csteps c c' -> conc_inv l0 ds c -> conc_inv l0 ds c'.
Proof. induction 1 as [|c1 c2 c3 H1 H2 IH]; [done|]. intros I. apply IH. by eapply cstep_inv. Qed.

Lemma conc_start l0 ds s :
  sv_list s = wrap_ns l0 -> conc_inv l0 ds (s, map HStart ds).
Proof.
  intros E. split; [cbn [snd]; by rewrite map_length|]. split.
  - exists []. split; [cbn; rewrite E; unfold built; by rewrite app_nil_r|].
    split; [by constructor|]. intros j Hj. by apply elem_of_nil in Hj.
  - cbn [snd]. intros i h Hi. rewrite list_lookup_fmap in Hi.
    destruct (ds !! i) as [d|] eqn:Ed; [|done]. injection Hi as <-. exists d. done.
Qed.

Lemma omap_forged_names (ds : list create_request) (js : list nat) :
  map ln_name (omap (fun j => forged <$> ds !! j) js) = omap (fun j => cr_name <$> ds !! j) js.
Proof.
  induction js as [|j js IH]; [done|]. cbn. destruct (ds !! j); cbn; [f_equal|]; exact IH.
Qed.

Lemma omap_lookup_in {A B} (g : A -> B) (ds : list A) (js : list nat) x :
  x ∈ omap (fun j => g <$> ds !! j) js -> exists j d, j ∈ js /\ ds !! j = Some d /\ x = g d.
Proof.
  intros H. apply elem_of_list_omap in H as (j & Hj & E).
  destruct (ds !! j) as [d|] eqn:Ed; [|done]. injection E as <-. by exists j, d.
Qed.

Lemma omap_names_nodup (ds : list create_request) (js : list nat) :
  NoDup (map cr_name ds) -> NoDup js -> NoDup (omap (fun j => cr_name <$> ds !! j) js).
Proof.
  intros Nd Nj. induction Nj as [|j js Hj Nj IH]; [by constructor|]. cbn.
  destruct (ds !! j) as [d|] eqn:Ed; cbn; [|done]. apply NoDup_cons. split; [|done].
  intros Hin. apply omap_lookup_in in Hin as (k & d' & Hk & Ek & E).
  assert (j = k) as ->; [|done].
  eapply (NoDup_lookup (map cr_name ds)); [done| |].
  - rewrite list_lookup_fmap, Ed. done.
  - rewrite list_lookup_fmap, Ek. cbn. by rewrite E.
Qed.

(** ** What the file holds *)

Lemma csteps_trans c1 c2 c3 : csteps c1 c2 -> csteps c2 c3 -> csteps c1 c3.
Proof. induction 1; [done|]. intros H3. eapply csteps_step; eauto. Qed.

Definition write_failed : hstate := HDone (Err (EMsg "failed to write namespaces.json")).

(** A finished handler stays finished. *)
Lemma csteps_done c1 c2 i r : csteps c1 c2 -> snd c1 !! i = Some (HDone r) -> snd c2 !! i = Some (HDone r).
Proof.
  induction 1 as [|c1 c2 c3 S C IH]; [done|]. intros Hi. apply IH. clear IH C c3.
  destruct S as [s hs j h s' h' Hj Hs]. cbn in *.
  destruct (decide (i = j)) as [->|Hne].
  - rewrite Hi in Hj. injection Hj as <-. inversion Hs.
  - by rewrite list_lookup_insert_ne.
Qed.

Definition was_list (c0 c : svc * list hstate) (data : list byte) : Prop :=
  exists c1, csteps c0 c1 /\ csteps c1 c /\ data = marshal (sv_list (fst c1)).

Lemma was_list_step c0 c c' data : was_list c0 c data -> cstep c c' -> was_list c0 c' data.
Proof.
  intros (c1 & A & B & E) S. exists c1. split; [done|]. split; [|done].
  eapply csteps_trans; [exact B|]. eapply csteps_step; [exact S|apply csteps_refl].
Qed.

Lemma file_inv c0 c1 c : csteps c1 c -> csteps c0 c1 ->
  Forall (fun h => h <> write_failed) (snd c) ->
  (sv_json (fst c1) = sv_json (fst c0) \/ exists d, sv_json (fst c1) = Some d /\ was_list c0 c1 d) ->
  (forall i d ns, snd c1 !! i = Some (HMarshalled d ns) -> was_list c0 c1 d) ->
  sv_json (fst c) = sv_json (fst c0) \/ exists d, sv_json (fst c) = Some d /\ was_list c0 c d.
Proof.
  induction 1 as [|c1 c2 c3 S C IH]; [done|]. intros H01 Hok Hf Hm.
  assert (csteps c0 c2) as H02.
  { eapply csteps_trans; [exact H01|]. eapply csteps_step; [exact S|apply csteps_refl]. }
  assert (forall d, was_list c0 c1 d -> was_list c0 c2 d) as Hw by (intros d Hd; by eapply was_list_step).
  assert (forall d, sv_json (fst c1) = sv_json (fst c0) \/
    (exists d, sv_json (fst c1) = Some d /\ was_list c0 c1 d) -> fst c1 = d ->
    sv_json d = sv_json (fst c0) \/ exists e, sv_json d = Some e /\ was_list c0 c2 e) as Hf2.
  { intros d [?|(e & ? & ?)] <-; [by left|right; eauto]. }
  apply IH; [done|done|..]; clear IH.
  - destruct S as [s hs j h s' h' Hj Hs]; cbn [fst snd] in *.
    assert (h' <> write_failed) as Hnf.
    { intros ->. rewrite Forall_forall in Hok. eapply (Hok write_failed); [|done].
      eapply elem_of_list_lookup_2, (csteps_done _ _ j _ C). cbn.
      apply list_lookup_insert. by eapply lookup_lt_Some. }
    inversion Hs; subst; cbn [sv_json set_list set_json] in *;
      try (destruct Hf as [?|(d0 & ? & ?)]; [by left|right; eauto]; done); try done.
    right. eexists. split; [done|]. apply Hw. eauto.
  - intros i d ns Hi. destruct S as [s hs j h s' h' Hj Hs]; cbn [fst snd] in *.
    destruct (decide (i = j)) as [->|Hne].
    + rewrite list_lookup_insert in Hi by (by eapply lookup_lt_Some). injection Hi as ->.
      inversion Hs; subst. exists (s', <[j := HMarshalled (marshal (sv_list s')) ns]> hs).
      split; [done|]. split; [apply csteps_refl|done].
    + rewrite list_lookup_insert_ne in Hi by done. apply Hw. eauto.
Qed.

Lemma file_is_a_past_list s ds s' hs' :
  csteps (s, map HStart ds) (s', hs') ->
  Forall (fun h => h <> HDone (Err (EMsg "failed to write namespaces.json"))) hs' ->
  sv_json s' = sv_json s \/
  exists s1 hs1, csteps (s, map HStart ds) (s1, hs1) /\ csteps (s1, hs1) (s', hs') /\
    sv_json s' = Some (marshal (sv_list s1)).
Proof.
  intros C Hok.
  destruct (file_inv (s, map HStart ds) (s, map HStart ds) (s', hs') C (csteps_refl _) Hok) as [H|H].
  - by left.
  - intros i d ns Hi. cbn in Hi. rewrite list_lookup_fmap in Hi.
    destruct (ds !! i); discriminate Hi.
  - by left.
  - destruct H as (d & Ed & ([s1 hs1] & A & B & ->)). right. by exists s1, hs1.
Qed.
