(** Proofs about the namespace service and the HTTP handlers. *)
From Verif Require Import Base GoIO Arrays ArraysFacts Similarity Naming Json Service Api
  ServiceSession SpecNames NamesFacts.

(** * Lookup by name *)
Definition wrap_ns (l : list lns) : list (option lns) := map Some l.

Lemma index_absent l name : forall i,
  name ∉ map ln_name l -> index_by_name i (wrap_ns l) name = Ret (-1).
Proof.
  induction l as [|x l IH]; intros i H; [done|]. cbn in H |- *.
  apply not_elem_of_cons in H as [H1 H2].
  rewrite bool_decide_false by congruence. by apply IH.
Qed.

Lemma index_present l1 x l2 : forall i,
  ln_name x ∉ map ln_name l1 ->
  index_by_name i (wrap_ns (l1 ++ x :: l2)) (ln_name x) = Ret (i + Z.of_nat (length l1)).
Proof.
  induction l1 as [|y l1 IH]; intros i H.
  - cbn. rewrite bool_decide_true by done. f_equal. lia.
  - cbn in H |- *. apply not_elem_of_cons in H as [H1 H2].
    rewrite bool_decide_false by congruence. rewrite IH by done. f_equal. lia.
Qed.

Lemma split_by_name l name :
  name ∈ map ln_name l ->
  exists l1 x l2, l = l1 ++ x :: l2 /\ ln_name x = name /\ name ∉ map ln_name l1.
Proof.
  induction l as [|y l IH]; intros H; [by apply elem_of_nil in H|].
  destruct (decide (ln_name y = name)) as [E|E].
  - exists [], y, l. split; [done|]. split; [done|]. apply not_elem_of_nil.
  - cbn in H. apply elem_of_cons in H as [H|H]; [congruence|].
    destruct (IH H) as (l1 & x & l2 & -> & Hx & Hn). exists (y :: l1), x, l2.
    split; [done|]. split; [done|]. cbn. rewrite not_elem_of_cons. split; [congruence|done].
Qed.

Lemma lookup_wrap l1 x l2 :
  wrap_ns (l1 ++ x :: l2) !! length l1 = Some (Some x).
Proof.
  unfold wrap_ns. rewrite map_app, lookup_app_r by (rewrite map_length; lia).
  rewrite map_length, Nat.sub_diag. done.
Qed.

Lemma insert_wrap l1 x y l2 :
  <[length l1 := Some y]> (wrap_ns (l1 ++ x :: l2)) = wrap_ns (l1 ++ y :: l2).
Proof.
  unfold wrap_ns. rewrite !map_app.
  replace (length l1) with (length (map Some l1) + 0)%nat by (rewrite map_length; lia).
  rewrite insert_app_r. done.
Qed.

Lemma deref_at l1 x l2 s :
  sv_list s = wrap_ns (l1 ++ x :: l2) -> deref (Z.of_nat (length l1)) s = (s, Ret x).
Proof.
  intros E. unfold deref, at_index. rewrite E.
  replace (Z.of_nat (length l1) <? 0) with false by (symmetry; apply Z.ltb_ge; lia).
  rewrite Nat2Z.id, lookup_wrap. done.
Qed.

Lemma assign_at l1 x l2 g s :
  sv_list s = wrap_ns (l1 ++ x :: l2) ->
  assign (Z.of_nat (length l1)) g s = (set_list (wrap_ns (l1 ++ g x :: l2)) s, Ret tt).
Proof.
  intros E. unfold assign, iobind. rewrite (deref_at l1 x l2 s E). cbv beta iota.
  rewrite Nat2Z.id, E, insert_wrap. done.
Qed.

Lemma set_list_same s : set_list (sv_list s) s = s.
Proof. by destruct s. Qed.

Lemma bind_ret {S A B} (m : io S A) (k : A -> io S B) s s' a :
  m s = (s', Ret a) -> iobind m k s = k a s'.
Proof. intros H. unfold iobind. by rewrite H. Qed.

Lemma bind_hang {S A B} (m : io S A) (k : A -> io S B) s s' :
  m s = (s', Hang) -> iobind m k s = (s', Hang).
Proof. intros H. unfold iobind. by rewrite H. Qed.

Lemma find_present l1 x l2 s name :
  sv_list s = wrap_ns (l1 ++ x :: l2) -> ln_name x = name -> name ∉ map ln_name l1 ->
  get_namespace_by_name name s = (s, Ret (Some (Z.of_nat (length l1)))).
Proof.
  intros E <- Hn. unfold get_namespace_by_name, iobind, get_namespace_index_by_name.
  rewrite E, index_present by done. cbv beta iota.
  replace (0 + Z.of_nat (length l1) <? 0) with false by (symmetry; apply Z.ltb_ge; lia).
  by rewrite Z.add_0_l.
Qed.

Lemma find_absent l s name :
  sv_list s = wrap_ns l -> name ∉ map ln_name l ->
  get_namespace_by_name name s = (s, Ret None).
Proof.
  intros E Hn. unfold get_namespace_by_name, iobind, get_namespace_index_by_name.
  by rewrite E, index_absent by done.
Qed.

(** * The calls *)

(** What saving does to the state and what it returns. *)
Definition saved (w : wfate) (s : svc) : svc :=
  match w with
  | WOk => set_json (marshal (sv_list s)) s
  | WNoOpen => s
  | WPart n => set_json (take n (marshal (sv_list s))) s
  end.

Lemma save_eq w s :
  save_namespaces w s =
  (saved w s, match w with WOk => Ret tt | _ => Err (EMsg "failed to write namespaces.json") end).
Proof. by destruct w. Qed.

Lemma saved_list w s : sv_list (saved w s) = sv_list s.
Proof. by destruct w. Qed.
Lemma saved_gone w s : sv_gone (saved w s) = sv_gone s.
Proof. by destruct w. Qed.


Lemma save_list w s : sv_list (fst (save_namespaces w s)) = sv_list s.
Proof. rewrite save_eq. apply saved_list. Qed.

Definition forged (d : create_request) : lns :=
  Lns (cr_name d) (if cr_max d =? 0 then 1000 else cr_max d) (cr_dislike d) [] false false.

Lemma create_taken w d s l :
  sv_list s = wrap_ns l -> cr_name d ∈ map ln_name l ->
  create_namespace w d s = (s, Err (EMsg "namespace name is already taken")).
Proof.
  intros E H. destruct (split_by_name _ _ H) as (l1 & x & l2 & -> & Hx & Hn).
  unfold create_namespace, iobind, get_namespace_index_by_name. rewrite E, <- Hx.
  rewrite index_present by (by rewrite Hx). cbv beta iota.
  replace (0 <=? 0 + Z.of_nat (length l1)) with true by (symmetry; apply Z.leb_le; lia). done.
Qed.

Lemma create_bad_type w d s l :
  sv_list s = wrap_ns l -> cr_name d ∉ map ln_name l -> cr_type d <> type_like ->
  create_namespace w d s = (s, Err (EMsg "unknown domain type")).
Proof.
  intros E H Ht. unfold create_namespace, iobind, get_namespace_index_by_name. rewrite E.
  rewrite index_absent by done. cbv beta iota.
  change (0 <=? -1) with false. cbv beta iota. unfold iolift, forge_namespace.
  by rewrite bool_decide_false by done.
Qed.

Lemma create_good w d s l :
  sv_list s = wrap_ns l -> cr_name d ∉ map ln_name l -> cr_type d = type_like ->
  create_namespace w d s =
  (saved w (set_list (wrap_ns (l ++ [forged d])) s),
   match w with WOk => Ret (forged d) | _ => Err (EMsg "failed to write namespaces.json") end).
Proof.
  intros E H Ht. unfold create_namespace, iobind, get_namespace_index_by_name. rewrite E.
  rewrite index_absent by done. cbv beta iota.
  change (0 <=? -1) with false. cbv beta iota. unfold iolift, forge_namespace.
  rewrite bool_decide_true by done. cbv beta iota.
  change (new_like_namespace _) with (forged d).
  rewrite E. replace (wrap_ns l ++ [Some (forged d)]) with (wrap_ns (l ++ [forged d]))
    by (unfold wrap_ns; by rewrite map_app).
  rewrite save_eq. by destruct w.
Qed.

(** Updating an existing namespace to a name that is free or its own. *)
Lemma update_hangs w name d s l1 x l2 :
  sv_list s = wrap_ns (l1 ++ x :: l2) -> ln_name x = name -> name ∉ map ln_name l1 ->
  (ur_name d = name \/ ur_name d ∉ map ln_name (l1 ++ x :: l2)) ->
  update_namespace w name d s =
  (set_list (wrap_ns (l1 ++ set_name (ur_name d) x :: l2)) s, Hang).
Proof.
  intros E Hx Hn Hd. unfold update_namespace.
  rewrite (bind_ret _ _ _ _ _ (find_present l1 x l2 s name E Hx Hn)). cbv beta iota.
  rewrite (bind_ret _ _ _ _ _ (deref_at l1 x l2 s E)). cbv beta.
  rewrite (bind_ret _ _ s s false).
  2: { destruct (decide (ln_name x = ur_name d)) as [Q|Q].
       - by rewrite bool_decide_true by done.
       - rewrite bool_decide_false by done. destruct Hd as [Hd|Hd]; [congruence|].
         unfold iobind, get_namespace_index_by_name. by rewrite E, index_absent by done. }
  cbv beta iota. apply bind_hang. unfold rename_and_wait.
  by rewrite (bind_ret _ _ _ _ _ (assign_at l1 x l2 _ s E)).
Qed.

Lemma update_missing w name d s l :
  sv_list s = wrap_ns l -> name ∉ map ln_name l ->
  update_namespace w name d s = (s, Err (EMsg "namespace not found")).
Proof.
  intros E H. unfold update_namespace, iobind at 1, get_namespace_by_name, iobind at 1,
    get_namespace_index_by_name. rewrite E, index_absent by done. done.
Qed.

Lemma update_taken w name d s l1 x l2 :
  sv_list s = wrap_ns (l1 ++ x :: l2) -> ln_name x = name -> name ∉ map ln_name l1 ->
  ur_name d <> name -> ur_name d ∈ map ln_name (l1 ++ x :: l2) ->
  update_namespace w name d s = (s, Err (EMsg "namespace name is already taken")).
Proof.
  intros E Hx Hn Hne Hd. unfold update_namespace.
  rewrite (bind_ret _ _ _ _ _ (find_present l1 x l2 s name E Hx Hn)). cbv beta iota.
  rewrite (bind_ret _ _ _ _ _ (deref_at l1 x l2 s E)). cbv beta.
  rewrite bool_decide_false by congruence.
  rewrite (bind_ret _ _ s s true); [done|].
  destruct (split_by_name _ _ Hd) as (m1 & y & m2 & El & Hy & Hny).
  unfold iobind, get_namespace_index_by_name. rewrite E, El, <- Hy.
  rewrite index_present by (by rewrite Hy). cbv beta iota.
  unfold ioret. replace (0 <=? 0 + Z.of_nat (length m1)) with true
    by (symmetry; apply Z.leb_le; lia). done.
Qed.

Lemma delete_missing w name s l :
  sv_list s = wrap_ns l -> name ∉ map ln_name l ->
  delete_namespace w name s = (s, Err (EMsg "no namespace")).
Proof.
  intros E H. unfold delete_namespace, iobind at 1, get_namespace_index_by_name.
  rewrite E, index_absent by done. done.
Qed.

Lemma delete_present w name s l1 x l2 :
  sv_list s = wrap_ns (l1 ++ x :: l2) -> ln_name x = name -> name ∉ map ln_name l1 ->
  ln_closed x = false ->
  exists l', Permutation l' (l1 ++ l2) /\
  delete_namespace w name s =
  (saved w (set_gone (Some (set_closed x)) (set_list (wrap_ns l') s)),
   match w with WOk => Ret tt | _ => Err (EMsg "failed to write namespaces.json") end).
Proof.
  intros E Hx Hn Hc.
  destruct (remove_at_spec (map Some l1) (map Some l2) (Some (set_closed x))) as (r & Er & Pr).
  rewrite map_length in Er.
  rewrite <- map_app in Pr. apply Permutation_map_inv in Pr as (l' & -> & Pl).
  exists l'. split; [by symmetry|].
  unfold delete_namespace, iobind at 1, get_namespace_index_by_name. rewrite E. rewrite <- Hx at 1.
  rewrite index_present by (by rewrite Hx). cbv beta iota.
  replace (0 + Z.of_nat (length l1) <? 0) with false by (symmetry; apply Z.ltb_ge; lia).
  rewrite Z.add_0_l. unfold iobind at 1, stop_namespace, iobind at 1.
  rewrite (deref_at l1 x l2 s E). cbv beta iota. rewrite Hc. rewrite (assign_at l1 x l2 _ s E).
  cbv beta iota. unfold iobind at 1.
  change (sv_list (set_list (wrap_ns (l1 ++ set_closed x :: l2)) s))
    with (wrap_ns (l1 ++ set_closed x :: l2)).
  rewrite (at_index_lookup _ (length l1) (Some (set_closed x))).
  2: { unfold wrap_ns. rewrite list_lookup_fmap, lookup_app_r, Nat.sub_diag by lia. done. }
  cbv beta iota. unfold iobind at 1.
  change (sv_list (set_list (wrap_ns (l1 ++ set_closed x :: l2)) s))
    with (wrap_ns (l1 ++ set_closed x :: l2)).
  unfold wrap_ns at 1. rewrite map_app. cbn [map]. rewrite Er. cbv beta iota.
  unfold iobind. rewrite save_eq. done.
Qed.

(** * HTTP *)
Lemma match_collection_param path ps :
  match_path (collection ++ [Par (ascii_bytes "domain")]) path = Some ps ->
  exists seg, seg <> [] /\
    path = [ascii_bytes "api"; ascii_bytes "v1"; ascii_bytes "namespaces"; seg] /\
    ps = [(ascii_bytes "domain", seg)].
Proof.
  unfold collection. cbn [app match_path].
  destruct path as [|a path]; [done|]. case_bool_decide as Ha; [|done].
  destruct path as [|b path]; [done|]. case_bool_decide as Hb; [|done].
  destruct path as [|c path]; [done|]. case_bool_decide as Hc; [|done].
  destruct path as [|d path]; [done|]. destruct d as [|d0 d]; [done|].
  destruct path as [|e path]; [|done]. intros [= <-]. exists (d0 :: d). split; [done|].
  split; [congruence|done].
Qed.

Lemma param_namespace seg :
  param [(ascii_bytes "domain", seg)] (ascii_bytes "namespace") = [].
Proof. done. Qed.

Lemma parse_empty : parse_namespace_name [] = Err (EMsg "invalid namespace name").
Proof. done. Qed.

Lemma handle_get_400 seg s :
  handle_get [(ascii_bytes "domain", seg)] s = (s, Ret (refuse 400 (EMsg "invalid namespace name"))).
Proof. done. Qed.

Lemma handle_update_400 w1 w2 seg body s :
  handle_update w1 w2 [(ascii_bytes "domain", seg)] body s =
    (s, Ret (refuse 400 (EMsg "invalid namespace name"))).
Proof. done. Qed.

Definition collection_path : list (list byte) :=
  [ascii_bytes "api"; ascii_bytes "v1"; ascii_bytes "namespaces"].

Lemma match_collection path ps :
  match_path collection path = Some ps -> path = collection_path.
Proof.
  unfold collection. cbn [match_path].
  destruct path as [|a path]; [done|]. case_bool_decide as Ha; [|done].
  destruct path as [|b path]; [done|]. case_bool_decide as Hb; [|done].
  destruct path as [|c path]; [done|]. case_bool_decide as Hc; [|done].
  destruct path as [|d path]; [|done]. subst. done.
Qed.

(** What the router does with a request. *)
Lemma dispatch_cases q :
  (rq_method q = MGet /\ rq_path q = collection_path /\ dispatch (routes q) q = handle_list) \/
  (rq_method q = MPost /\ rq_path q = collection_path /\
   dispatch (routes q) q = handle_create (rq_w1 q) (rq_create q)) \/
  ((rq_method q = MGet \/ rq_method q = MPut) /\
   (exists seg, seg <> [] /\ rq_path q = collection_path ++ [seg]) /\
   forall s, dispatch (routes q) q s = (s, Ret (refuse 400 (EMsg "invalid namespace name")))) \/
  (forall s, dispatch (routes q) q s = (s, Ret (Response 404 (PError CNoRoute)))).
Proof.
  destruct (rq_method q) eqn:M; unfold routes, dispatch; rewrite M; cbn [method_eqb].
  - destruct (match_path collection (rq_path q)) as [ps|] eqn:P.
    + left. by apply match_collection in P as ->.
    + destruct (match_path (collection ++ _) (rq_path q)) as [ps|] eqn:P2.
      * apply match_collection_param in P2 as (seg & Hs & -> & ->). right; right; left.
        split; [by left|]. split; [exists seg; done|]. intros s. by rewrite handle_get_400.
      * by right; right; right.
  - destruct (match_path collection (rq_path q)) as [ps|] eqn:P.
    + right; left. by apply match_collection in P as ->.
    + by right; right; right.
  - destruct (match_path (collection ++ _) (rq_path q)) as [ps|] eqn:P2.
    + apply match_collection_param in P2 as (seg & Hs & -> & ->). right; right; left.
      split; [by right|]. split; [exists seg; done|]. intros s. by rewrite handle_update_400.
    + by right; right; right.
  - by right; right; right.
Qed.

(** Creation through HTTP is one CreateNamespace, or changes nothing. *)
Lemma handle_create_cases w body s :
  (exists c, handle_create w body s = (s, Ret (Response 400 (PError c)))) \/
  exists b d, body = Some b /\ create_errors b = [] /\ create_to_domain b = Ret d /\
    handle_create w body s =
    match create_namespace w d s with
    | (s', Ret ns) => (s', Ret (Response 201 (PNamespace (new_namespace_response ns))))
    | (s', Err e) => (s', Ret (refuse 400 e))
    | (s', Panic) => (s', Panic)
    | (s', Hang) => (s', Hang)
    end.
Proof.
  unfold handle_create. destruct body as [b|]; [|left; by eexists].
  destruct (create_errors b) eqn:B; [|left; by eexists].
  destruct (create_to_domain b) as [d|e| |] eqn:D.
  - right. exists b, d. split; [done|]. split; [done|]. split; [done|].
    unfold or_else at 1, iolift. unfold or_else.
    by destruct (create_namespace w d s) as [s' []].
  - left. by eexists.
  - exfalso. unfold create_to_domain, parse_namespace_name, parse_namespace_type in D.
    destruct (match_string _ _); [case_bool_decide|]; done.
  - exfalso. unfold create_to_domain, parse_namespace_name, parse_namespace_type in D.
    destruct (match_string _ _); [case_bool_decide|]; done.
Qed.

Lemma list_ok l : make_namespace_response_array (wrap_ns l) = Ret (map new_namespace_response l).
Proof. induction l as [|x l IH]; [done|]. cbn. fold (wrap_ns l). by rewrite IH. Qed.

Lemma handle_list_ok s l :
  sv_list s = wrap_ns l ->
  handle_list s = (s, Ret (Response 200 (PList (map new_namespace_response l)))).
Proof.
  intros E. unfold handle_list, iobind, get_namespaces. rewrite E. unfold iolift.
  by rewrite list_ok.
Qed.

(** * Boot *)
Lemma decode_from_empty js : fst (decode_elems [] js) = replicate (length js) None.
Proof.
  induction js as [|j js IH]; [done|]. cbn [decode_elems length replicate].
  change (default None (head (@nil (option lns)))) with (@None lns).
  change (tail (@nil (option lns))) with (@nil (option lns)).
  destruct (decode_elems [] js) as [l ok]. cbn in IH. subst l.
  by destruct j.
Qed.

(** A fresh process never gets a usable namespace out of the file. *)
Lemma load_fresh env disk :
  exists n, sv_list (fst (load_namespaces (new_service env disk))) = replicate n None.
Proof.
  unfold load_namespaces, new_service. cbn [sv_json]. destruct disk as [data|]; [|by exists 0%nat].
  destruct (json_parse data) as [[]|]; try by exists 0%nat.
  pose proof (decode_from_empty l) as D. cbn [sv_list].
  destruct (decode_elems [] l) as [r ok]. cbn in D. subst r. by exists (length l).
Qed.

Lemma boot_ok start env disk s :
  boot start env disk = (s, Ret tt) -> sv_list s = [].
Proof.
  unfold boot. destruct (load_fresh env disk) as [n E].
  set (s0 := fst (load_namespaces (new_service env disk))) in *. clearbody s0.
  intros [= <- H]. rewrite E in H |- *. by destruct n.
Qed.

(** * The invariant *)
Definition svc_inv (s : svc) : Prop :=
  exists l, sv_list s = wrap_ns l /\ NoDup (map ln_name l) /\
    Forall (fun x => ln_closed x = false /\ ln_base x = [] /\ ln_has_factory x = false) l.

Lemma inv_same s s' : sv_list s' = sv_list s -> svc_inv s -> svc_inv s'.
Proof. intros E (l & H & R). exists l. by rewrite E. Qed.

Lemma create_inv w d s : svc_inv s -> svc_inv (fst (create_namespace w d s)).
Proof.
  intros I. pose proof I as (l & E & N & F).
  destruct (decide (cr_name d ∈ map ln_name l)) as [H|H].
  { by rewrite (create_taken w d s l E H). }
  destruct (decide (cr_type d = type_like)) as [T|T].
  - rewrite (create_good w d s l E H T). cbn [fst]. eapply inv_same; [apply saved_list|].
    exists (l ++ [forged d]). split; [done|]. rewrite map_app. split.
    + apply NoDup_app. split; [done|]. split; [|apply NoDup_singleton].
      intros n Hn Hf. cbn in Hf. apply elem_of_list_singleton in Hf as ->. done.
    + apply Forall_app. split; [done|]. by repeat constructor.
  - by rewrite (create_bad_type w d s l E H T).
Qed.

Lemma update_inv w n d s : svc_inv s -> svc_inv (fst (update_namespace w n d s)).
Proof.
  intros I. pose proof I as (l & E & N & F).
  destruct (decide (n ∈ map ln_name l)) as [H|H];
    [|by rewrite (update_missing w n d s l E H)].
  destruct (split_by_name _ _ H) as (l1 & x & l2 & -> & Hx & Hn).
  destruct (decide (ur_name d = n)) as [Q|Q].
  - rewrite (update_hangs w n d s l1 x l2 E Hx Hn (or_introl Q)). cbn [fst].
    exists (l1 ++ set_name (ur_name d) x :: l2). split; [done|]. split.
    + rewrite map_app in N |- *. cbn [map] in N |- *. rewrite Q, <- Hx. done.
    + apply Forall_app in F as [F1 F2]. apply Forall_cons in F2 as [F2 F3].
      apply Forall_app. split; [done|]. constructor; [|done]. done.
  - destruct (decide (ur_name d ∈ map ln_name (l1 ++ x :: l2))) as [T|T].
    + by rewrite (update_taken w n d s l1 x l2 E Hx Hn Q T).
    + rewrite (update_hangs w n d s l1 x l2 E Hx Hn (or_intror T)). cbn [fst].
      exists (l1 ++ set_name (ur_name d) x :: l2). split; [done|]. split.
      * rewrite map_app in N, T |- *. cbn [map] in N, T |- *.
        apply not_elem_of_app in T as [T1 T2]. apply not_elem_of_cons in T2 as [_ T2].
        apply NoDup_app in N as (N1 & N2 & N3). apply NoDup_cons in N3 as [N3 N4].
        apply NoDup_app. split; [done|]. split.
        { intros m Hm Hm'. apply elem_of_cons in Hm' as [->|Hm']; [done|].
          apply (N2 m Hm). by right. }
        by apply NoDup_cons.
      * apply Forall_app in F as [F1 F2]. apply Forall_cons in F2 as [F2 F3].
        apply Forall_app. split; [done|]. constructor; [|done]. done.
Qed.

Lemma delete_inv w n s : svc_inv s -> svc_inv (fst (delete_namespace w n s)).
Proof.
  intros I. pose proof I as (l & E & N & F).
  destruct (decide (n ∈ map ln_name l)) as [H|H];
    [|by rewrite (delete_missing w n s l E H)].
  destruct (split_by_name _ _ H) as (l1 & x & l2 & -> & Hx & Hn).
  pose proof F as F'. apply Forall_app in F' as [F1 F2]. apply Forall_cons in F2 as [F2 F3].
  destruct (delete_present w n s l1 x l2 E Hx Hn (proj1 F2)) as (l' & P & ->). cbn [fst].
  eapply inv_same; [apply saved_list|]. exists l'. split; [done|]. split.
  - rewrite (Permutation_map ln_name P). rewrite map_app in N |- *. cbn [map] in N.
    apply NoDup_app in N as (N1 & N2 & N3). apply NoDup_cons in N3 as [N3 N4].
    apply NoDup_app. split; [done|]. split; [|done].
    intros m Hm Hm'. apply (N2 m Hm). by right.
  - rewrite P. by apply Forall_app.
Qed.

Lemma recovery_fst m s : fst (recovery m s) = fst (m s).
Proof. unfold recovery. by destruct (m s) as [s' []]. Qed.

Lemma serve_inv q s : svc_inv s -> svc_inv (fst (serve q s)).
Proof.
  intros I. unfold serve. rewrite recovery_fst.
  destruct (dispatch_cases q) as [(_ & _ & ->)|[(_ & _ & ->)|[(_ & _ & ->)| -> ]]]; try done.
  - pose proof I as (l & E & _). by rewrite (handle_list_ok s l E).
  - destruct (handle_create_cases (rq_w1 q) (rq_create q) s)
      as [[c ->]|(b & d & _ & _ & _ & ->)]; [done|].
    pose proof (create_inv (rq_w1 q) d s I) as C.
    by destruct (create_namespace (rq_w1 q) d s) as [s' []].
Qed.

Lemma running_inv s : running s -> svc_inv s.
Proof.
  induction 1 as [start env disk s H|r s H IH].
  - apply boot_ok in H. exists []. split; [done|]. split; [by constructor|by constructor].
  - destruct r; cbn [after].
    + by apply create_inv.
    + by apply update_inv.
    + by apply delete_inv.
    + by apply serve_inv.
Qed.

(** Off the list are stopped namespaces only. *)
Definition all_stopped (s : svc) : Prop :=
  Forall (fun o => exists x, o = Some x /\ ln_closed x = true) (sv_gone s).

Lemma create_gone w d s : svc_inv s -> sv_gone (fst (create_namespace w d s)) = sv_gone s.
Proof.
  intros (l & E & _). destruct (decide (cr_name d ∈ map ln_name l)) as [H|H].
  { by rewrite (create_taken w d s l E H). }
  destruct (decide (cr_type d = type_like)) as [T|T].
  - rewrite (create_good w d s l E H T). cbn [fst]. by rewrite saved_gone.
  - by rewrite (create_bad_type w d s l E H T).
Qed.

Lemma update_gone w n d s : svc_inv s -> sv_gone (fst (update_namespace w n d s)) = sv_gone s.
Proof.
  intros (l & E & _). destruct (decide (n ∈ map ln_name l)) as [H|H];
    [|by rewrite (update_missing w n d s l E H)].
  destruct (split_by_name _ _ H) as (l1 & x & l2 & -> & Hx & Hn).
  destruct (decide (ur_name d = n)) as [Q|Q]; [by rewrite (update_hangs w n d s l1 x l2 E Hx Hn (or_introl Q))|].
  destruct (decide (ur_name d ∈ map ln_name (l1 ++ x :: l2))) as [T|T].
  - by rewrite (update_taken w n d s l1 x l2 E Hx Hn Q T).
  - by rewrite (update_hangs w n d s l1 x l2 E Hx Hn (or_intror T)).
Qed.

Lemma delete_stopped w n s : svc_inv s -> all_stopped s -> all_stopped (fst (delete_namespace w n s)).
Proof.
  intros (l & E & _ & F) A. destruct (decide (n ∈ map ln_name l)) as [H|H];
    [|by rewrite (delete_missing w n s l E H)].
  destruct (split_by_name _ _ H) as (l1 & x & l2 & -> & Hx & Hn).
  apply Forall_app in F as [_ F]. apply Forall_cons in F as [[Hc _] _].
  destruct (delete_present w n s l1 x l2 E Hx Hn Hc) as (l' & _ & ->). cbn [fst].
  unfold all_stopped. rewrite saved_gone. cbn [set_gone set_list sv_gone]. apply Forall_app.
  split; [done|]. constructor; [|constructor]. by eexists.
Qed.

Lemma serve_gone q s : svc_inv s -> sv_gone (fst (serve q s)) = sv_gone s.
Proof.
  intros I. unfold serve. rewrite recovery_fst.
  destruct (dispatch_cases q) as [(_ & _ & ->)|[(_ & _ & ->)|[(_ & _ & ->)| -> ]]]; try done.
  - pose proof I as (l & E & _). by rewrite (handle_list_ok s l E).
  - destruct (handle_create_cases (rq_w1 q) (rq_create q) s)
      as [[c ->]|(b & d & _ & _ & _ & ->)]; [done|].
    pose proof (create_gone (rq_w1 q) d s I) as C.
    by destruct (create_namespace (rq_w1 q) d s) as [s' []].
Qed.

Lemma running_stopped s : running s -> all_stopped s.
Proof.
  induction 1 as [start env disk s H|r s H IH].
  - unfold all_stopped. assert (Hg : sv_gone s = []); [|rewrite Hg; constructor].
    apply (f_equal fst) in H. unfold boot in H. cbn [fst] in H. subst s.
    unfold load_namespaces, new_service. cbn [sv_json]. destruct disk as [d|]; [|done].
    destruct (json_parse d) as [[]|]; try done.
    cbn [sv_list]. by destruct (decode_elems _ _) as [l0 ok].
  - apply running_inv in H. unfold all_stopped. destruct r; cbn [after].
    + by rewrite create_gone.
    + by rewrite update_gone.
    + by apply delete_stopped.
    + by rewrite serve_gone.
Qed.

Lemma names_wrap s l : sv_list s = wrap_ns l -> names s = map ln_name l.
Proof.
  intros E. unfold names. rewrite E. clear. induction l as [|x l IH]; [done|].
  cbn. f_equal. exact IH.
Qed.

(** * The namespaces file *)
Definition elem_json (x : option lns) : json :=
  match x with Some _ => JObj [] | None => JNull end.

Lemma json_value_elem fuel x r :
  (1 <= fuel)%nat -> json_value fuel (marshal_elem x ++ r) = Some (elem_json x, r).
Proof. intros H. destruct fuel; [lia|]. by destruct x. Qed.

Lemma json_elems_marshal l : forall x r fuel,
  (length l + 2 <= fuel)%nat ->
  json_elems fuel (marshal_elem x ++ marshal_rest l ++ r) = Some (map elem_json (x :: l), r).
Proof.
  induction l as [|y l IH]; intros x r fuel H; (destruct fuel as [|fuel]; [lia|]).
  - cbn [json_elems]. rewrite json_value_elem by (cbn in H; lia). done.
  - cbn [json_elems marshal_rest]. rewrite json_value_elem by (cbn in H; lia).
    rewrite <- !app_assoc. change (ascii_bytes ",") with [44]. cbn [app skip_ws].
    change (is_ws 44) with false. cbv beta iota.
    rewrite IH by (cbn in H; lia). done.
Qed.

Lemma marshal_rest_length l : (length l + 1 <= length (marshal_rest l))%nat.
Proof.
  induction l as [|x l IH]; [done|]. cbn [marshal_rest length]. rewrite !app_length.
  destruct x; cbn; lia.
Qed.

Lemma elems_flat l : foldr Z.max 0 (map json_depth (map elem_json l)) <= 1.
Proof.
  induction l as [|x l IH]; [done|]. cbn [map foldr]. destruct x; cbn [elem_json json_depth map foldr]; lia.
Qed.

Lemma json_parse_marshal l : json_parse (marshal l) = Some (JArr (map elem_json l)).
Proof.
  destruct l as [|x l]; [done|]. unfold json_parse.
  assert (E : forall fuel, (length l + 3 <= fuel)%nat ->
    json_value fuel (marshal (x :: l)) = Some (JArr (map elem_json (x :: l)), [])).
  { intros fuel H. destruct fuel as [|fuel]; [lia|].
    assert (E2 : json_elems fuel (marshal_elem x ++ marshal_rest l) =
                 Some (map elem_json (x :: l), [])).
    { rewrite <- (app_nil_r (marshal_rest l)). apply json_elems_marshal. lia. }
    unfold marshal. change (ascii_bytes "[") with [91]. cbn [app json_value skip_ws].
    change (is_ws 91) with false. cbv beta iota. rewrite Z.eqb_refl.
    rewrite E2. by destruct x. }
  rewrite E.
  { assert (D : json_depth (JArr (map elem_json (x :: l))) <=? max_nesting = true); [|by rewrite D].
    apply Z.leb_le. cbn [json_depth]. unfold max_nesting.
    pose proof (elems_flat (x :: l)). lia. }
  unfold marshal. rewrite !app_length. pose proof (marshal_rest_length l).
  destruct x; cbn; lia.
Qed.

(** Loading in a new process what another process saved. *)
Lemma load_saved env l :
  load_namespaces (new_service env (Some (marshal (wrap_ns l)))) =
  (Svc (replicate (length l) None) (base_path env) (Some (marshal (wrap_ns l))) [],
   match l with [] => Ret tt | _ => Err (EMsg "failed to decode namespaces.json") end).
Proof.
  unfold load_namespaces, new_service. cbn [sv_json sv_list]. rewrite json_parse_marshal.
  pose proof (decode_from_empty (map elem_json (wrap_ns l))) as D.
  destruct (decode_elems [] (map elem_json (wrap_ns l))) as [r ok] eqn:X. cbn in D. subst r.
  unfold wrap_ns. rewrite !map_length. destruct l as [|x l].
  - by injection X as <-.
  - assert (ok = false) as ->; [|done].
    cbn in X. destruct (decode_elems [] (map elem_json (map Some l))) as [r ok'].
    by injection X as _ <-.
Qed.
