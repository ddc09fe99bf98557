(** C118: what a client of the HTTP API sees over any number of requests. *)
From Flocq Require Import IEEE754.BinarySingleNaN.
From Verif Require Import Base GoIO Similarity Naming Service Api ServiceSession SpecNames
  NamesFacts ServiceFacts ApiFacts PropService.
#[local] Open Scope Z_scope.

(** Requests answered one after the other. *)
Inductive conversation : svc -> list (request * response) -> svc -> Prop :=
| talk_nil s : conversation s [] s
| talk_cons s q r s1 t s2 :
    serve q s = (s1, Ret r) -> conversation s1 t s2 -> conversation s ((q, r) :: t) s2.

(** The namespace that an answer says was created. *)
Definition created (x : request * response) : option ns_response :=
  match rq_method (fst x), snd x with
  | MPost, Response 201 (PNamespace r) => Some r
  | _, _ => None
  end.

(** The requests during which a save would fail. *)
Definition unsaved (t : list (request * response)) : list (request * response) :=
  List.filter (fun x => match rq_w1 (fst x) with WOk => false | _ => true end) t.

Definition asks_for_list (q : request) : Prop := rq_method q = MGet /\ rq_path q = collection_path.

(** The contract: a list that is asked for shows what the first one showed and then, in
    order, what was answered to have been created since. *)
Definition lists_what_was_created : Prop :=
  forall s t s' q1 r1 t1 q2 r2, running s -> conversation s t s' ->
  t = (q1, r1) :: t1 ++ [(q2, r2)] -> asks_for_list q1 -> asks_for_list q2 ->
  exists l, r1 = Response 200 (PList l) /\ r2 = Response 200 (PList (l ++ omap created t1)).

Definition get_list : request := Request MGet collection_path None None WOk WOk.

(** False: a namespace whose creation was refused because the list could not be saved is
    listed. *)
Theorem C118_list_refuted : ~ lists_what_was_created.
Proof.
  intros H.
  pose (q := Request MPost collection_path (Some (CreateBody (ascii_bytes "a") (ascii_bytes "like") 7 one)) None WNoOpen WOk).
  destruct (H ex_fresh [(get_list, snd (match serve get_list ex_fresh with (s, Ret r) => (s, r) | (s, _) => (s, refuse 0 EEOF) end));
      (q, refuse 400 (EMsg "failed to write namespaces.json"));
      (get_list, Response 200 (PList [NsResponse (ascii_bytes "a") (ascii_bytes "like") 7]))]
      (fst (serve q ex_fresh)) get_list (Response 200 (PList [])) [(q, refuse 400 (EMsg "failed to write namespaces.json"))]
      get_list (Response 200 (PList [NsResponse (ascii_bytes "a") (ascii_bytes "like") 7])) ex_fresh_running)
    as (l & E1 & E2); try done.
  - do 3 (eapply talk_cons; [reflexivity|]). apply talk_nil.
  - injection E1 as <-. discriminate E2.
Qed.
Print Assumptions C118_list_refuted.

Definition listing (s : svc) (l : list ns_response) : Prop :=
  exists ns, sv_list s = wrap_ns ns /\ l = map new_namespace_response ns.

Lemma list_answer s q l : listing s l -> asks_for_list q -> serve q s = (s, Ret (Response 200 (PList l))).
Proof.
  intros (ns & E & ->) [Hm Hp]. unfold serve, recovery.
  assert (D : dispatch (routes q) q = handle_list) by (unfold routes, dispatch; rewrite Hm, Hp; reflexivity).
  by rewrite D, (handle_list_ok s ns E).
Qed.

(** One request: the list grows by what is created, or by what was refused because the
    save failed. *)
Lemma listing_step q s s1 r l : listing s l -> serve q s = (s1, Ret r) ->
  (listing s1 (l ++ omap created [(q, r)]) /\ (created (q, r) = None -> s1 = s)) \/
  (rq_w1 q <> WOk /\ created (q, r) = None /\ exists x, listing s1 (l ++ [x])).
Proof.
  intros (ns & E & ->) H. unfold serve, recovery in H.
  assert (Same : s1 = s -> created (q, r) = None ->
    (listing s1 (map new_namespace_response ns ++ omap created [(q, r)]) /\ (created (q, r) = None -> s1 = s))).
  { intros -> C. cbn [omap list_omap]. rewrite C, app_nil_r. split; [by exists ns|done]. }
  destruct (dispatch_cases q) as [(M & _ & D)|[(M & _ & D)|[(_ & _ & D)|D]]]; rewrite D in H.
  - rewrite (handle_list_ok s ns E) in H. injection H as <- <-. left. apply Same; [done|]. unfold created; cbn [fst snd]; by rewrite M.
  - destruct (handle_create_cases (rq_w1 q) (rq_create q) s) as [[c H0]|(b & d & Eb & Hb & Hd & H0)]; rewrite H0 in H.
    { injection H as <- <-. left. apply Same; [done|]. unfold created; cbn [fst snd]; by rewrite M. }
    destruct (to_domain_eq _ _ Hd) as [Ed _].
    destruct (decide (cr_name d ∈ map ln_name ns)) as [Hin|Hin].
    { rewrite (create_taken (rq_w1 q) d s ns E Hin) in H. injection H as <- <-. left. apply Same; [done|].
      unfold created; cbn [fst snd]; by rewrite M. }
    rewrite (create_good (rq_w1 q) d s ns E Hin) in H by (by rewrite Ed).
    assert (L : forall w, listing (saved w (set_list (wrap_ns (ns ++ [forged d])) s))
      (map new_namespace_response ns ++ [new_namespace_response (forged d)])).
    { intros w. exists (ns ++ [forged d]). rewrite saved_list, map_app. done. }
    destruct (rq_w1 q) eqn:W; injection H as <- <-.
    + left. unfold created. cbn [omap list_omap fst snd]. rewrite M. split; [apply (L WOk)|done].
    + right. split; [done|]. split; [unfold created; cbn [fst snd]; by rewrite M|]. eexists. apply (L WNoOpen).
    + right. split; [done|]. split; [unfold created; cbn [fst snd]; by rewrite M|]. eexists. apply (L (WPart n)).
  - injection H as <- <-. left. apply Same; [done|]. unfold created. cbn. by destruct (rq_method q).
  - injection H as <- <-. left. apply Same; [done|]. unfold created. cbn. by destruct (rq_method q).
Qed.

Lemma listing_talk s t s' : conversation s t s' -> forall l, listing s l ->
  exists l', listing s' (l ++ l') /\ sublist (omap created t) l' /\
    (length l' <= length (omap created t) + length (unsaved t))%nat /\
    (Forall (fun x => rq_w1 (fst x) = WOk) t -> l' = omap created t).
Proof.
  induction 1 as [s|s q r s1 t s2 H _ IH]; intros l Hl.
  { exists []. rewrite app_nil_r. split; [done|]. split; [constructor|]. split; [cbn; lia|done]. }
  destruct (listing_step q s s1 r l Hl H) as [[Hl1 _]|(W & C & x & Hl1)].
  - destruct (IH _ Hl1) as (l' & H1 & H2 & H3 & H4). exists (omap created [(q, r)] ++ l').
    rewrite app_assoc. split; [done|]. change ((q, r) :: t) with ([(q, r)] ++ t). rewrite omap_app.
    split; [by apply sublist_app|]. split.
    + unfold unsaved in *. cbn [app List.filter fst]. rewrite !app_length.
      destruct (rq_w1 q); cbn [length]; lia.
    + intros [_ F]%Forall_cons. by rewrite (H4 F).
  - destruct (IH _ Hl1) as (l' & H1 & H2 & H3 & H4). exists (x :: l').
    rewrite <- app_assoc in H1. split; [done|]. cbn [omap list_omap]. rewrite C.
    split; [by constructor|]. split.
    + unfold unsaved in *. cbn [List.filter fst].
      destruct (rq_w1 q); [done|cbn [length]; lia..].
    + intros [F _]%Forall_cons. done.
Qed.

Lemma conversation_app s t1 t2 s' : conversation s (t1 ++ t2) s' ->
  exists s1, conversation s t1 s1 /\ conversation s1 t2 s'.
Proof.
  revert s. induction t1 as [|[q r] t1 IH]; intros s H; [by exists s; split; [constructor|]|].
  inversion H as [|? ? ? s1 ? ? E H']; subst. destruct (IH s1 H') as (s2 & H1 & H2).
  exists s2. split; [by econstructor|done].
Qed.

(** What holds: it is so while every save succeeds.  Otherwise the list has at most one
    more entry for each save that failed, and misses nothing. *)
Theorem C118_list_partial :
  forall s t s' q1 r1 t1 q2 r2, running s -> conversation s t s' ->
  t = (q1, r1) :: t1 ++ [(q2, r2)] -> asks_for_list q1 -> asks_for_list q2 ->
  exists l l', r1 = Response 200 (PList l) /\ r2 = Response 200 (PList (l ++ l')) /\
    sublist (omap created t1) l' /\
    (length l' <= length (omap created t1) + length (unsaved t1))%nat /\
    (Forall (fun x => rq_w1 (fst x) = WOk) t1 -> l' = omap created t1).
Proof.
  intros s t s' q1 r1 t1 q2 r2 R C -> A1 A2. apply running_inv in R as (ns & E & _).
  assert (L : listing s (map new_namespace_response ns)) by (by exists ns).
  inversion C as [|? ? ? s1 ? ? E1 C1]; subst.
  rewrite (list_answer s q1 _ L A1) in E1. injection E1 as <- <-.
  apply conversation_app in C1 as (s2 & C1 & C2).
  destruct (listing_talk _ _ _ C1 _ L) as (l' & H1 & H2).
  exists (map new_namespace_response ns), l'. split; [done|].
  inversion C2 as [|? ? ? s3 ? ? E2 C3]; subst.
  rewrite (list_answer s2 q2 _ H1 A2) in E2. injection E2 as <- <-. done.
Qed.
Print Assumptions C118_list_partial.

(** Whatever is not answered with a creation changes nothing at all, if saves succeed. *)
Theorem C118_others_change_nothing : forall q s s' r, running s -> serve q s = (s', Ret r) ->
  rq_method q <> MPost \/ (rq_w1 q = WOk /\ rs_status r <> 201) -> s' = s.
Proof.
  intros q s s' r R H Hq. apply running_inv in R as (ns & E & _).
  destruct (listing_step q s s' r (map new_namespace_response ns) ltac:(by exists ns) H) as [[_ Hs]|(W & C & x & Hl)].
  - apply Hs. unfold created. cbn [fst snd]. destruct Hq as [Hq|[_ Hq]]; [by destruct (rq_method q)|].
    destruct (rq_method q); try done. destruct r as [st b]. cbn in Hq. destruct st as [|p|p]; try done.
    repeat (destruct p as [p|p|]; try done).
  - destruct Hq as [Hq|[Hq _]]; [|done]. exfalso. unfold serve, recovery in H.
    destruct (dispatch_cases q) as [(M & _ & D)|[(M & _ & D)|[(_ & _ & D)|D]]]; rewrite D in H; try done.
    + rewrite (handle_list_ok s ns E) in H. injection H as <- <-. destruct Hl as (ns' & E' & Hl).
      rewrite E in E'. unfold wrap_ns in E'. apply (f_equal length) in E', Hl.
      rewrite app_length, !map_length in *. cbn in Hl. lia.
    + injection H as <- <-. destruct Hl as (ns' & E' & Hl).
      rewrite E in E'. unfold wrap_ns in E'. apply (f_equal length) in E', Hl.
      rewrite app_length, !map_length in *. cbn in Hl. lia.
    + injection H as <- <-. destruct Hl as (ns' & E' & Hl).
      rewrite E in E'. unfold wrap_ns in E'. apply (f_equal length) in E', Hl.
      rewrite app_length, !map_length in *. cbn in Hl. lia.
Qed.
Print Assumptions C118_others_change_nothing.

(** A list, a creation, the same one again, a wrong one, an unknown path, and a list. *)
Example C118_case :
  let c (n : string) := post (CreateBody (ascii_bytes n) (ascii_bytes "like") 7 one) in
  exists rs s', conversation ex_fresh (zip [get_list; c "a"%string; c "a"%string; c "A"%string; Request MPut [] None None WOk WOk; c "b"%string; get_list] rs) s' /\
    map rs_status rs = [200; 201; 400; 400; 404; 201; 200] /\
    last rs = Some (Response 200 (PList [NsResponse (ascii_bytes "a") (ascii_bytes "like") 7;
      NsResponse (ascii_bytes "b") (ascii_bytes "like") 7])).
Proof.
  cbn zeta. eexists [_; _; _; _; _; _; _], _. split.
  - cbn [zip zip_with]. do 7 (eapply talk_cons; [reflexivity|]). apply talk_nil.
  - split; reflexivity.
Qed.
