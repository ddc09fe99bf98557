(** Proofs about the model of internal/domain/profile.go. *)
From Verif Require Import Base Arrays Spec ArraysFacts Profile.

Definition profile_inv (p : profile) : Prop :=
  strictly_ascending (p_likes p) /\ strictly_ascending (p_dislikes p) /\
  (forall x, x ∈ p_likes p -> x ∉ p_dislikes p) /\
  Forall is_u64 (p_likes p) /\ Forall is_u64 (p_dislikes p).

Lemma is_u64_in_type x : is_u64 x <-> in_type U64 x.
Proof. unfold is_u64, in_type. change (tmin U64) with 0. change (tmax U64) with (2 ^ 64 - 1). lia. Qed.

Lemma u64_dev h x : Forall is_u64 h -> is_u64 x -> forall y, y ∈ h -> in_type U64 (Z.abs (y - x)).
Proof.
  intros Hh Hx y Hy. rewrite Forall_forall in Hh.
  apply unsigned_abs_in_type; [done| |]; apply is_u64_in_type; auto.
Qed.

Lemma index_u64_spec h x :
  strictly_ascending h ->
  (exists l1 l2, h = l1 ++ x :: l2 /\ x ∉ l1 /\ x ∉ l2 /\
     index_u64 h x = Ret (Z.of_nat (length l1))) \/
  (x ∉ h /\ index_u64 h x = Ret (-1)).
Proof.
  intros Hs. unfold index_u64.
  assert (Ha : ascending_by Z.ltb h).
  { apply ascending_by_Z. by apply strictly_ascending_ascending. }
  destruct (decide (x ∈ h)) as [Hin|Hn].
  - left. destruct (binary_index_of_found _ _ Z_total_order h x Ha Hin) as (i & E & Hi).
    pose proof (take_drop_middle h i x Hi) as Eh.
    exists (take i h), (drop (S i) h). split; [done|].
    rewrite <- Eh in Hs. apply strictly_ascending_split in Hs as (_ & H2 & H3).
    apply strictly_ascending_cons in H2 as [_ H4].
    repeat split.
    + intros H. pose proof (H3 x x H (elem_of_list_here _ _)). lia.
    + intros H. pose proof (H4 x H). lia.
    + rewrite E. do 2 f_equal. rewrite take_length.
      apply lookup_lt_Some in Hi. lia.
  - right. split; [done|]. by apply (binary_index_of_absent _ _ Z_total_order).
Qed.

Lemma remove_item_list h x :
  strictly_ascending h -> Forall is_u64 h ->
  exists r, obind (index_u64 h x) (fun index =>
    if 0 <=? index then remove_saving_order h index else Ret h) = Ret r /\
    strictly_ascending r /\ (forall y, y ∈ r <-> y ∈ h /\ y <> x) /\ Forall is_u64 r.
Proof.
  intros Hs Hu. destruct (index_u64_spec h x Hs) as [(l1 & l2 & -> & Hn1 & Hn2 & E)|[Hn E]];
    rewrite E; cbn [obind].
  - destruct (Z.leb_spec 0 (Z.of_nat (length l1))); [|lia].
    rewrite remove_saving_order_app. exists (l1 ++ l2). split; [done|].
    apply strictly_ascending_split in Hs as (H1 & H2 & H3).
    apply strictly_ascending_cons in H2 as [H2 H4].
    split; [|split].
    + apply strictly_ascending_split. split; [done|]. split; [done|].
      intros a b Ha Hb. apply H3; [done|]. by right.
    + intros y. rewrite !elem_of_app, elem_of_cons. split.
      * intros Hy. split; [naive_solver|]. intros ->. naive_solver.
      * naive_solver.
    + apply Forall_app in Hu as [Hu1 Hu2]. apply Forall_app. split; [done|].
      by apply Forall_cons in Hu2 as [_ ?].
  - destruct (Z.leb_spec 0 (-1)); [lia|]. exists h. split; [done|]. split; [done|].
    split; [|done]. intros y. split; [|by intros [? _]].
    intros Hy. split; [done|]. by intros ->.
Qed.

Lemma unlike_spec p x :
  profile_inv p ->
  exists l, unlike p x = Ret (Profile (p_user p) l (p_dislikes p)) /\
    profile_inv (Profile (p_user p) l (p_dislikes p)) /\
    forall y, y ∈ l <-> y ∈ p_likes p /\ y <> x.
Proof.
  intros (H1 & H2 & H3 & H4 & H5).
  destruct (remove_item_list (p_likes p) x H1 H4) as (r & E & Hr & Hel & Hu).
  exists r. unfold unlike. destruct (index_u64 (p_likes p) x) as [i| | |]; cbn [obind] in *; try done.
  split; [|split; [|done]].
  - destruct (0 <=? i).
    + rewrite E. done.
    + injection E as <-. by destruct p.
  - repeat split; cbn [p_likes p_dislikes]; try done. intros y Hy. apply Hel in Hy as [Hy _]. auto.
Qed.

Lemma undislike_spec p x :
  profile_inv p ->
  exists l, undislike p x = Ret (Profile (p_user p) (p_likes p) l) /\
    profile_inv (Profile (p_user p) (p_likes p) l) /\
    forall y, y ∈ l <-> y ∈ p_dislikes p /\ y <> x.
Proof.
  intros (H1 & H2 & H3 & H4 & H5).
  destruct (remove_item_list (p_dislikes p) x H2 H5) as (r & E & Hr & Hel & Hu).
  exists r. unfold undislike. destruct (index_u64 (p_dislikes p) x) as [i| | |]; cbn [obind] in *; try done.
  split; [|split; [|done]].
  - destruct (0 <=? i).
    + rewrite E. done.
    + injection E as <-. by destruct p.
  - repeat split; cbn [p_likes p_dislikes]; try done. intros y Hy Hy'. apply Hel in Hy' as [Hy' _].
    by apply (H3 y).
Qed.

(** Removal needs only sortedness, not disjointness; used by Like/Dislike where
    the item is briefly in both lists. *)
Lemma like_spec p x :
  profile_inv p -> is_u64 x ->
  exists l d, like p x = Ret (Profile (p_user p) l d) /\
    profile_inv (Profile (p_user p) l d) /\
    (forall y, y ∈ l <-> y ∈ p_likes p \/ y = x) /\
    (forall y, y ∈ d <-> y ∈ p_dislikes p /\ y <> x).
Proof.
  intros (H1 & H2 & H3 & H4 & H5) Hx.
  destruct (put_saving_order_spec U64 (p_likes p) x (u64_dev _ _ H4 Hx) H1) as (l & El & Hl & Hell & _).
  destruct (remove_item_list (p_dislikes p) x H2 H5) as (r & E & Hr & Hel & Hu).
  exists l, r. unfold like. rewrite El. cbn [obind]. unfold undislike. cbn [p_likes p_dislikes p_user].
  destruct (index_u64 (p_dislikes p) x) as [i| | |]; cbn [obind] in *; try done.
  split; [|split; [|done]].
  - destruct (0 <=? i).
    + rewrite E. done.
    + injection E as <-. done.
  - repeat split; cbn [p_likes p_dislikes]; try done.
    + intros y Hy Hy'. apply Hel in Hy' as [Hy' Hne]. apply Hell in Hy as [Hy | ->]; [|done].
      by apply (H3 y).
    + apply Forall_forall. intros y Hy. apply Hell in Hy as [Hy | ->]; [|done].
      rewrite Forall_forall in H4. auto.
Qed.

Lemma dislike_spec p x :
  profile_inv p -> is_u64 x ->
  exists l d, dislike p x = Ret (Profile (p_user p) l d) /\
    profile_inv (Profile (p_user p) l d) /\
    (forall y, y ∈ d <-> y ∈ p_dislikes p \/ y = x) /\
    (forall y, y ∈ l <-> y ∈ p_likes p /\ y <> x).
Proof.
  intros (H1 & H2 & H3 & H4 & H5) Hx.
  destruct (put_saving_order_spec U64 (p_dislikes p) x (u64_dev _ _ H5 Hx) H2) as (l & El & Hl & Hell & _).
  destruct (remove_item_list (p_likes p) x H1 H4) as (r & E & Hr & Hel & Hu).
  exists r, l. unfold dislike. rewrite El. cbn [obind]. unfold unlike. cbn [p_likes p_dislikes p_user].
  destruct (index_u64 (p_likes p) x) as [i| | |]; cbn [obind] in *; try done.
  split; [|split; [|done]].
  - destruct (0 <=? i).
    + rewrite E. done.
    + injection E as <-. done.
  - repeat split; cbn [p_likes p_dislikes]; try done.
    + intros y Hy Hy'. apply Hel in Hy as [Hy Hne]. apply Hell in Hy' as [Hy' | ->]; [|done].
      by apply (H3 y).
    + apply Forall_forall. intros y Hy. apply Hell in Hy as [Hy | ->]; [|done].
      rewrite Forall_forall in H5. auto.
Qed.

Lemma remove_item_spec p x :
  profile_inv p ->
  exists l d, remove_item p x = Ret (Profile (p_user p) l d) /\
    profile_inv (Profile (p_user p) l d) /\
    (forall y, y ∈ l <-> y ∈ p_likes p /\ y <> x) /\
    (forall y, y ∈ d <-> y ∈ p_dislikes p /\ y <> x).
Proof.
  intros Hp. unfold remove_item.
  destruct (unlike_spec p x Hp) as (l & E1 & Hp1 & Hl). rewrite E1. cbn [obind].
  destruct (undislike_spec _ x Hp1) as (d & E2 & Hp2 & Hd). cbn [p_user p_likes p_dislikes] in *.
  exists l, d. done.
Qed.

(** The verdict a profile state stands for. *)
Definition state_verdict (p : profile) (x : Z) : verdict :=
  if bool_decide (x ∈ p_likes p) then Liked
  else if bool_decide (x ∈ p_dislikes p) then Disliked else Unknown.

Lemma qualify_item_spec p x :
  profile_inv p -> qualify_item p x = Ret (verdict_code (state_verdict p x)).
Proof.
  intros (H1 & H2 & H3 & H4 & H5). unfold qualify_item, state_verdict.
  destruct (index_u64_spec (p_likes p) x H1) as [(l1 & l2 & Eh & Hn1 & Hn2 & E)|[Hn E]];
    rewrite E; cbn [obind].
  - destruct (Z.leb_spec 0 (Z.of_nat (length l1))); [|lia].
    rewrite bool_decide_true by (rewrite Eh; apply elem_of_app; right; left). done.
  - destruct (Z.leb_spec 0 (-1)); [lia|]. rewrite bool_decide_false by done.
    destruct (index_u64_spec (p_dislikes p) x H2) as [(k1 & k2 & Eh & Hk1 & Hk2 & Ek)|[Hk Ek]];
      rewrite Ek; cbn [obind].
    + destruct (Z.leb_spec 0 (Z.of_nat (length k1))); [|lia].
      rewrite bool_decide_true by (rewrite Eh; apply elem_of_app; right; left). done.
    + destruct (Z.leb_spec 0 (-1)); [lia|]. rewrite bool_decide_false by done. done.
Qed.

Definition as_request (o : profile_op) : request * Z :=
  match o with
  | OLike x => (RqLike, x)
  | OUnlike x => (RqUnlike, x)
  | ODislike x => (RqDislike, x)
  | OUndislike x => (RqUndislike, x)
  | ORemoveItem x => (RqRemove, x)
  end.

Lemma state_verdict_ext p q x :
  (x ∈ p_likes p <-> x ∈ p_likes q) -> (x ∈ p_dislikes p <-> x ∈ p_dislikes q) ->
  state_verdict p x = state_verdict q x.
Proof.
  intros H1 H2. unfold state_verdict.
  rewrite (bool_decide_ext _ _ H1), (bool_decide_ext _ _ H2). done.
Qed.

Lemma run_profile_op_spec p o :
  profile_inv p -> is_u64 (op_item o) ->
  exists p', run_profile_op p o = Ret p' /\ profile_inv p' /\ p_user p' = p_user p /\
    forall x, state_verdict p' x =
      if bool_decide ((as_request o).2 = x) then judge (state_verdict p x) (as_request o).1
      else state_verdict p x.
Proof.
  intros Hp Hx. pose proof Hp as (_ & _ & Hdis & _).
  destruct o as [i|i|i|i|i]; cbn [run_profile_op as_request fst snd op_item] in *.
  - destruct (like_spec p i Hp Hx) as (l & d & E & Hp' & Hl & Hd).
    eexists; split; [exact E|]. split; [done|]. split; [done|]. intros x. case_bool_decide as Hix.
    + subst. unfold state_verdict; cbn. rewrite bool_decide_true by (apply Hl; by right). done.
    + apply state_verdict_ext; cbn; [rewrite Hl|rewrite Hd]; naive_solver.
  - destruct (unlike_spec p i Hp) as (l & E & Hp' & Hl).
    eexists; split; [exact E|]. split; [done|]. split; [done|]. intros x. case_bool_decide as Hix.
    + subst. unfold state_verdict; cbn. rewrite bool_decide_false by (rewrite Hl; naive_solver).
      destruct (decide (x ∈ p_likes p)) as [Hin|Hin].
      * rewrite (bool_decide_true (x ∈ p_likes p)) by done.
        rewrite bool_decide_false; [done|]. by apply Hdis.
      * rewrite (bool_decide_false (x ∈ p_likes p)) by done.
        by destruct (bool_decide (x ∈ p_dislikes p)).
    + apply state_verdict_ext; cbn; [rewrite Hl|]; naive_solver.
  - destruct (dislike_spec p i Hp Hx) as (l & d & E & Hp' & Hd & Hl).
    eexists; split; [exact E|]. split; [done|]. split; [done|]. intros x. case_bool_decide as Hix.
    + subst. unfold state_verdict; cbn. rewrite bool_decide_false by (rewrite Hl; naive_solver).
      rewrite bool_decide_true by (apply Hd; by right). done.
    + apply state_verdict_ext; cbn; [rewrite Hl|rewrite Hd]; naive_solver.
  - destruct (undislike_spec p i Hp) as (d & E & Hp' & Hd).
    eexists; split; [exact E|]. split; [done|]. split; [done|]. intros x. case_bool_decide as Hix.
    + subst. unfold state_verdict; cbn.
      rewrite (bool_decide_false (x ∈ d)) by (rewrite Hd; naive_solver).
      destruct (bool_decide (x ∈ p_likes p)), (bool_decide (x ∈ p_dislikes p)); done.
    + apply state_verdict_ext; cbn; [|rewrite Hd]; naive_solver.
  - destruct (remove_item_spec p i Hp) as (l & d & E & Hp' & Hl & Hd).
    eexists; split; [exact E|]. split; [done|]. split; [done|]. intros x. case_bool_decide as Hix.
    + subst. unfold state_verdict; cbn. rewrite !bool_decide_false; [done| |].
      * rewrite Hd; naive_solver.
      * rewrite Hl; naive_solver.
    + apply state_verdict_ext; cbn; [rewrite Hl|rewrite Hd]; naive_solver.
Qed.

Lemma profile_inv_new u : profile_inv (new_profile u).
Proof.
  repeat split; cbn; try apply strictly_ascending_nil; try apply Forall_nil; try done.
  intros x Hx. by apply elem_of_nil in Hx.
Qed.

Lemma run_profile_spec_gen ops : forall p,
  profile_inv p -> Forall (fun o => is_u64 (op_item o)) ops ->
  exists p', run_profile p ops = Ret p' /\ profile_inv p' /\ p_user p' = p_user p /\
    forall x, state_verdict p' x =
      fold_left (fun v rq => if bool_decide (rq.2 = x) then judge v rq.1 else v)
        (map as_request ops) (state_verdict p x).
Proof.
  unfold run_profile. induction ops as [|o ops IH]; intros p Hp Hu; cbn [fold_left map].
  - exists p. done.
  - apply Forall_cons in Hu as [Ho Hu].
    destruct (run_profile_op_spec p o Hp Ho) as (p1 & E1 & Hp1 & Hu1 & Hv1).
    cbn [obind]. rewrite E1.
    destruct (IH p1 Hp1 Hu) as (p2 & E2 & Hp2 & Hu2 & Hv2).
    exists p2. split; [done|]. split; [done|]. split; [congruence|].
    intros x. rewrite Hv2. by rewrite Hv1.
Qed.

Lemma run_profile_spec u ops :
  Forall (fun o => is_u64 (op_item o)) ops ->
  exists p', run_profile (new_profile u) ops = Ret p' /\ profile_inv p' /\ p_user p' = u /\
    forall x, qualify_item p' x = Ret (verdict_code (verdict_after (map as_request ops) x)).
Proof.
  intros Hu. destruct (run_profile_spec_gen ops (new_profile u) (profile_inv_new u) Hu)
    as (p' & E & Hp & Hus & Hv).
  exists p'. split; [done|]. split; [done|]. split; [done|].
  intros x. rewrite qualify_item_spec by done. rewrite Hv. done.
Qed.

Lemma run_profile_verdicts u ops :
  Forall (fun o => is_u64 (op_item o)) ops ->
  exists p, run_profile (new_profile u) ops = Ret p /\ p_user p = u /\
    forall x, qualify_item p x = Ret (verdict_code (verdict_after (map as_request ops) x)).
Proof. intros H. destruct (run_profile_spec u ops H) as (p & ? & ? & ? & ?). by exists p. Qed.

Lemma run_profile_sorted_disjoint u ops p :
  Forall (fun o => is_u64 (op_item o)) ops ->
  run_profile (new_profile u) ops = Ret p ->
  strictly_ascending (p_likes p) /\ strictly_ascending (p_dislikes p) /\
  (forall x, x ∈ p_likes p -> x ∉ p_dislikes p) /\
  (forall x, x ∈ p_likes p <-> verdict_after (map as_request ops) x = Liked) /\
  (forall x, x ∈ p_dislikes p <-> verdict_after (map as_request ops) x = Disliked).
Proof.
  intros Hu E. destruct (run_profile_spec_gen ops (new_profile u) (profile_inv_new u) Hu)
    as (p' & E' & (H1 & H2 & H3 & _) & Hus & Hv).
  rewrite E in E'. injection E' as <-.
  assert (Hv' : forall x, state_verdict p x = verdict_after (map as_request ops) x) by apply Hv.
  split; [done|]. split; [done|]. split; [done|].
  split; intros x; rewrite <- Hv'; unfold state_verdict.
  - case_bool_decide; [done|]. case_bool_decide; done.
  - case_bool_decide as Hl; [|by case_bool_decide].
    split; [|done]. intros Hd. exfalso. by apply (H3 x).
Qed.
