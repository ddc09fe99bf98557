(** C49, C70: the handlers themselves, as they would answer if the route bound the
    path parameter they read. *)
From Coq Require Import Reals.
From Flocq Require Import IEEE754.BinarySingleNaN.
From Verif Require Import Base GoIO Similarity Naming Service Api ServiceSession SpecNames
  NamesFacts ServiceFacts ApiFacts PropService.
#[local] Open Scope Z_scope.

Definition bound (name : list byte) : list (list byte * list byte) :=
  [(ascii_bytes "namespace", name)].

(** * C49 *)

Lemma in_names s l n : sv_list s = wrap_ns l -> n ∈ names s <-> n ∈ map ln_name l.
Proof. intros E. by rewrite (names_wrap s l E). Qed.

Lemma bad_name n : ~ name_ok n -> parse_namespace_name n = Err (EMsg "invalid namespace name").
Proof.
  intros H. unfold parse_namespace_name. destruct (match_string name_regex n) eqn:M; [|done].
  by apply name_regex_ok in M.
Qed.

(** GET: 400 for what is not a name, 404 for a name nobody has, and otherwise the
    namespace of that name. *)
Theorem C49_get_handler_partial : forall name s, running s ->
  exists r, handle_get (bound name) s = (s, Ret r) /\
  (~ name_ok name -> r = Response 400 (PError (CError (EMsg "invalid namespace name")))) /\
  (name_ok name -> name ∉ names s -> r = Response 404 (PError (CNote "namespace not found"))) /\
  (forall x, name_ok name -> Some x ∈ sv_list s -> ln_name x = name ->
   r = Response 200 (PNamespace (NsResponse name (ascii_bytes "like") (ln_max x)))).
Proof.
  intros name s R. apply running_inv in R as (l & E & Hnd & _).
  unfold handle_get. change (param (bound name) (ascii_bytes "namespace")) with name.
  destruct (match_string name_regex name) eqn:M.
  2: { exists (refuse 400 (EMsg "invalid namespace name")).
       assert (Hb : ~ name_ok name) by (intros H; apply name_regex_ok in H; congruence).
       unfold or_else, iolift. rewrite (bad_name name Hb).
       split; [done|]. split; [done|]. split; intros; done. }
  apply name_regex_ok in M. unfold or_else, iolift. rewrite (parse_name_ok _ M).
  destruct (decide (name ∈ map ln_name l)) as [Hin|Hin].
  - destruct (split_by_name _ _ Hin) as (l1 & x & l2 & -> & Hx & Hn).
    rewrite (bind_ret _ _ _ _ _ (find_present l1 x l2 s name E Hx Hn)). cbv beta iota.
    rewrite (bind_ret _ _ _ _ _ (deref_at l1 x l2 s E)).
    eexists. split; [reflexivity|]. split; [done|]. split.
    { intros _ H. rewrite (in_names s _ _ E) in H. done. }
    intros y _ Hy Ey. rewrite E in Hy. unfold wrap_ns in Hy.
    apply elem_of_list_fmap in Hy as (y' & [= <-] & Hy).
    assert (y = x) as ->.
    { rewrite map_app in Hnd. cbn in Hnd. apply NoDup_app in Hnd as (_ & Hd & Hnd).
      apply NoDup_cons in Hnd as [Hx2 _].
      apply elem_of_app in Hy as [Hy|Hy].
      - destruct Hn. rewrite <- Ey. by apply elem_of_list_fmap_1.
      - apply elem_of_cons in Hy as [->|Hy]; [done|].
        destruct Hx2. rewrite Hx, <- Ey. by apply elem_of_list_fmap_1. }
    unfold new_namespace_response. by rewrite Hx.
  - rewrite (bind_ret _ _ _ _ _ (find_absent l s name E Hin)).
    eexists. split; [reflexivity|]. split; [done|]. split; [done|].
    intros x _ Hx Ex. destruct Hin. rewrite E in Hx. apply elem_of_list_fmap in Hx as (y & [= <-] & Hy).
    rewrite <- Ex. by apply elem_of_list_fmap_1.
Qed.
Print Assumptions C49_get_handler_partial.

(** A body PUT may take. *)
Definition update_ok (b : update_body) : Prop :=
  api_name_ok (ub_name b) /\ factor_in_range (ub_dislike b) /\ B2R (ub_dislike b) <> 0%R.

Lemma update_binding_ok b : 0 <= ub_max b ->
  (update_binding b = true /\ exists d, update_to_domain b = Ret d) <-> update_ok b.
Proof.
  intros Hmax. unfold update_binding, update_ok. rewrite !andb_true_iff, min0_max1.
  assert (M : tag_omitempty_min1 (ub_max b) = true).
  { unfold tag_omitempty_min1. destruct (Z.eqb_spec (ub_max b) 0); [done|]. apply Z.leb_le. lia. }
  rewrite api_name_split. pose proof (alphanum_lower (ub_name b)) as A.
  rewrite !andb_true_iff in A. rewrite M. split.
  - intros [[[HA _] [HR HF]] (d & D)]. split; [|split; [done|]].
    + split; [|by apply A]. unfold update_to_domain in D.
      destruct (parse_namespace_name (ub_name b)) eqn:P; try done.
      by apply parse_name_ret in P as [_ P].
    + apply required_float_val; [by destruct HF|done].
  - intros [[HN HA] [HF HR]]. split.
    + split; [split; [by apply A|done]|]. split; [|done].
      apply required_float_val; [by destruct HF|done].
    + unfold update_to_domain. rewrite (parse_name_ok _ HN). by eexists.
Qed.

Lemma update_domain_eq b d : update_to_domain b = Ret d ->
  d = UpdateRequest (ub_name b) (ub_max b) (ub_dislike b).
Proof.
  unfold update_to_domain. destruct (parse_namespace_name (ub_name b)) eqn:P; try done.
  apply parse_name_ret in P as [-> _]. by intros [= <-].
Qed.

(** What PUT does once it found the namespace and took the body. *)
Lemma put_found name w1 w2 b d s l1 x l2 :
  name_ok name -> sv_list s = wrap_ns (l1 ++ x :: l2) -> ln_name x = name ->
  name ∉ map ln_name l1 -> update_binding b = true -> update_to_domain b = Ret d ->
  handle_update w1 w2 (bound name) (Some b) s =
  (do taken <- (if bool_decide (ln_name x = ub_name b) then ioret false
                else do f <- get_namespace_by_name (ur_name d);
                     ioret (match f with Some _ => true | None => false end));
   if taken : bool then ioret (note 404 "namespace name taken") else
   or_else (update_namespace w1 name d) (refuse 400) (fun ns =>
   or_else (save_namespaces w2) (refuse 500) (fun _ =>
   ioret (Response 200 (PNamespace (new_namespace_response ns)))))) s.
Proof.
  intros M E Hx Hn Hb Hd. unfold handle_update.
  change (param (bound name) (ascii_bytes "namespace")) with name.
  unfold or_else at 1, iolift at 1. rewrite (parse_name_ok _ M).
  rewrite (bind_ret _ _ _ _ _ (find_present l1 x l2 s name E Hx Hn)). cbv beta iota.
  rewrite (proj2 (update_errors_nil b) Hb). unfold or_else at 1, iolift. rewrite Hd.
  by rewrite (bind_ret _ _ _ _ _ (deref_at l1 x l2 s E)).
Qed.

(** PUT: every request it refuses it refuses with this status and without changing
    anything; every request it should carry out blocks forever. *)
Theorem C49_put_handler_partial : forall name w1 w2 body s, running s ->
  (forall b, body = Some b -> 0 <= ub_max b) ->
  let result := handle_update w1 w2 (bound name) body s in
  (~ name_ok name -> result = (s, Ret (Response 400 (PError (CError (EMsg "invalid namespace name")))))) /\
  (name_ok name -> name ∉ names s -> result = (s, Ret (Response 404 (PError (CNote "namespace not found"))))) /\
  (name_ok name -> name ∈ names s -> (forall b, body = Some b -> ~ update_ok b) ->
   exists c, result = (s, Ret (Response 400 (PError c))) /\ (body = None -> c = CDecode) /\
     (body <> None -> exists l, l <> [] /\ c = CFields l)) /\
  (forall b, name_ok name -> name ∈ names s -> body = Some b -> update_ok b ->
   (ub_name b <> name -> ub_name b ∈ names s -> result = (s, Ret (Response 404 (PError (CNote "namespace name taken"))))) /\
   (ub_name b = name \/ ub_name b ∉ names s -> snd result = Hang)).
Proof.
  intros name w1 w2 body s R Hmax result. apply running_inv in R as (l & E & Hnd & _).
  unfold result, handle_update. change (param (bound name) (ascii_bytes "namespace")) with name.
  split.
  { intros Hb. unfold or_else, iolift. by rewrite (bad_name name Hb). }
  split.
  { intros M H. unfold or_else at 1, iolift at 1. rewrite (parse_name_ok _ M).
    rewrite (in_names s _ _ E) in H. by rewrite (bind_ret _ _ _ _ _ (find_absent l s name E H)). }
  assert (Hdo : forall b, name_ok name -> name ∈ names s -> body = Some b -> update_ok b -> 
    (ub_name b <> name -> ub_name b ∈ names s -> result = (s, Ret (Response 404 (PError (CNote "namespace name taken"))))) /\
    (ub_name b = name \/ ub_name b ∉ names s -> snd result = Hang)).
  { intros b M H -> Hu. unfold result.
    rewrite (in_names s _ _ E) in H. destruct (split_by_name _ _ H) as (l1 & x & l2 & -> & Hx & Hn).
    apply update_binding_ok in Hu as (Hb & d & Hd); [|by apply Hmax].
    rewrite (put_found name w1 w2 b d s l1 x l2 M E Hx Hn Hb Hd).
    apply update_domain_eq in Hd. subst d. cbn [ur_name].
    rewrite !(in_names s _ _ E). split.
    - intros Hne Hin. rewrite bool_decide_false by congruence.
      destruct (split_by_name _ _ Hin) as (m1 & y & m2 & El & Hy & Hny).
      rewrite (bind_ret _ _ s s true); [done|].
      rewrite (bind_ret _ _ _ _ _ (find_present m1 y m2 s (ub_name b) ltac:(by rewrite E, El) Hy Hny)).
      done.
    - intros Hf. rewrite (bind_ret _ _ s s false).
      2: { destruct (decide (ln_name x = ub_name b)) as [Q|Q].
           - by rewrite bool_decide_true by done.
           - rewrite bool_decide_false by done. destruct Hf as [Hf|Hf]; [congruence|].
             by rewrite (bind_ret _ _ _ _ _ (find_absent _ s (ub_name b) E Hf)). }
      cbv beta iota. unfold or_else.
      by rewrite (update_hangs w1 name (UpdateRequest (ub_name b) (ub_max b) (ub_dislike b))
                    s l1 x l2 E Hx Hn Hf). }
  split; [|exact Hdo].
  intros M H Hnone. unfold or_else at 1, iolift at 1. rewrite (parse_name_ok _ M).
  rewrite (in_names s _ _ E) in H. destruct (split_by_name _ _ H) as (l1 & x & l2 & -> & Hx & Hn).
  rewrite (bind_ret _ _ _ _ _ (find_present l1 x l2 s name E Hx Hn)). cbv beta iota.
  destruct body as [b|]; [|by exists CDecode]. specialize (Hnone b eq_refl).
  rewrite <- update_binding_ok, <- update_errors_nil in Hnone by auto.
  destruct (update_errors b) as [|fe l].
  2: { exists (CFields (fe :: l)). split; [done|]. split; [done|]. intros _. by exists (fe :: l). }
  unfold or_else at 1, iolift at 1.
  destruct (update_to_domain b) as [d|e| |] eqn:Ed.
  - destruct Hnone. split; [done|by eexists].
  - eexists. split; [reflexivity|]. split; [done|]. intros _. eexists. split; [|reflexivity].
    unfold update_to_domain in Ed. unfold name_domain_error. by destruct (parse_namespace_name (ub_name b)).
  - unfold update_to_domain in Ed. by destruct (parse_namespace_name (ub_name b)).
  - unfold update_to_domain in Ed. by destruct (parse_namespace_name (ub_name b)).
Qed.
Print Assumptions C49_put_handler_partial.

(** * C70 *)

(** Whatever is in the list, even entries that are nil, no request ends the
    process: a panic of a handler is answered 500. *)
Theorem C70_no_request_kills : forall q s, snd (serve q s) <> Panic.
Proof. intros q s. unfold serve, recovery. by destruct (dispatch _ _ s) as [s' [| | |]]. Qed.
Print Assumptions C70_no_request_kills.

(** A list with a nil entry makes every handler that reads it panic. *)
Example C70_panic_case :
  handle_list (Svc [None] [] None []) = (Svc [None] [] None [], Panic) /\
  serve (Request MGet collection_path None None WOk WOk) (Svc [None] [] None []) =
    (Svc [None] [] None [], Ret (Response 500 (PError CPanic))).
Proof. by split. Qed.

(** The handlers answer for a namespace that exists. *)
Definition case_state : svc := after (SCreate WOk (ex_create "a")) ex_fresh.
Example C49_handler_case :
  running case_state /\ names case_state = [ascii_bytes "a"] /\
  handle_get (bound (ascii_bytes "a")) case_state =
    (case_state, Ret (Response 200 (PNamespace (NsResponse (ascii_bytes "a") (ascii_bytes "like") 1000)))) /\
  handle_get (bound (ascii_bytes "b")) case_state = (case_state, Ret (Response 404 (PError (CNote "namespace not found")))).
Proof.
  split; [apply running_after, ex_fresh_running|]. split; [done|]. split; vm_compute; done.
Qed.
