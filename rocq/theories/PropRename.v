(** Properties C116 and C117: what the similarity of two users depends on
    (internal/domain/profile.go).  [fu] ranges over the ways a Go compiler may fuse the
    weighted sum, [oob] over the results of int(x) for x outside the range of int. *)
From Coq Require Import Reals Lra.
From Flocq Require Import Core.Core IEEE754.BinarySingleNaN.
From Verif Require Import Base Profile Spec ProfileFacts Similarity SimilarityFacts AccuracyFacts MonotoneFacts
  PropAccuracy PropMonotone.
Open Scope R_scope.

(** * C116 *)

(** The items of the list [A'] are those of [A] under other ids. *)
Definition renamed (g : Z -> Z) (A A' : list Z) : Prop :=
  forall y, y ∈ A' <-> exists x, x ∈ A /\ y = g x.

Lemma renamed_sizes g A B A' B' : (forall x y, x ∈ A ++ B -> y ∈ A ++ B -> g x = g y -> x = y) ->
  renamed g A A' -> renamed g B B' -> common A' B' = common A B /\ union_size A' B' = union_size A B.
Proof.
  intros Hg HA HB. unfold renamed in HA, HB.
  assert (K : forall X X' : gset Z, (forall x, x ∈ X -> x ∈ A ++ B) ->
    (forall y, y ∈ X' <-> exists x, x ∈ X /\ y = g x) -> size X' = size X).
  { intros X X' HX HX'.
    change (size X) with (length (elements X)). rewrite <- (fmap_length g).
    rewrite <- (size_list_to_set_NoDup (g <$> elements X)).
    - f_equal. apply set_eq. intros y. rewrite HX', elem_of_list_to_set, elem_of_list_fmap.
      split; intros (x & H1 & H2); exists x; rewrite elem_of_elements in *; done.
    - assert (HE : forall l, (forall x, x ∈ l -> x ∈ A ++ B) -> NoDup l -> NoDup (g <$> l)).
      { induction l as [|z l IH]; intros Hl HN; [constructor|]. apply NoDup_cons in HN as [Hz HN].
        cbn. apply NoDup_cons. split; [|apply IH; [intros x Hx; apply Hl; by right|done]].
        intros (x & Ex & Hx)%elem_of_list_fmap. apply Hg in Ex; [congruence| |]; apply Hl; [by left|by right]. }
      apply HE; [|apply NoDup_elements]. intros x Hx%elem_of_elements. by apply HX. }
  split; apply K.
  - intros x. rewrite elem_of_intersection, !elem_of_list_to_set, elem_of_app. tauto.
  - intros y. rewrite elem_of_intersection, !elem_of_list_to_set, HA, HB. split.
    + intros ((x & Hx & ->) & (x' & Hx' & Ex)).
      apply Hg in Ex as <-; [|apply elem_of_app; tauto..]. exists x.
      by rewrite elem_of_intersection, !elem_of_list_to_set.
    + intros (x & Hx & ->). rewrite elem_of_intersection, !elem_of_list_to_set in Hx.
      destruct Hx. split; by exists x.
  - intros x. rewrite elem_of_union, !elem_of_list_to_set, elem_of_app. tauto.
  - intros y. rewrite elem_of_union, !elem_of_list_to_set, HA, HB. split.
    + intros [(x & Hx & ->) | (x & Hx & ->)]; exists x; rewrite elem_of_union, !elem_of_list_to_set; tauto.
    + intros (x & Hx & ->). rewrite elem_of_union, !elem_of_list_to_set in Hx.
      destruct Hx; [left|right]; by exists x.
Qed.

(** Which items the ids stand for, who the users are, and the calls that led to the
    profiles make no difference: only which items the two have in common. *)
Theorem C116_ids_do_not_matter :
  forall fu oob p q p' q' f gl gd,
  api_profile p -> api_profile q -> api_profile p' -> api_profile q' ->
  (forall x y, x ∈ p_likes p ++ p_likes q -> y ∈ p_likes p ++ p_likes q -> gl x = gl y -> x = y) ->
  (forall x y, x ∈ p_dislikes p ++ p_dislikes q -> y ∈ p_dislikes p ++ p_dislikes q -> gd x = gd y -> x = y) ->
  renamed gl (p_likes p) (p_likes p') -> renamed gl (p_likes q) (p_likes q') ->
  renamed gd (p_dislikes p) (p_dislikes p') -> renamed gd (p_dislikes q) (p_dislikes q') ->
  exists r, compute_similarity fu oob p q f = Ret r /\ compute_similarity fu oob p' q' f = Ret r.
Proof.
  intros fu oob p q p' q' f gl gd Hp Hq Hp' Hq' Gl Gd Lp Lq Dp Dq.
  apply api_profile_inv in Hp, Hq, Hp', Hq'.
  rewrite !compute_similarity_score by done. eexists. split; [done|].
  destruct (renamed_sizes gl _ _ _ _ Gl Lp Lq) as [C1 U1].
  destruct (renamed_sizes gd _ _ _ _ Gd Dp Dq) as [C2 U2].
  unfold set_sim. by rewrite C1, U1, C2, U2.
Qed.
Print Assumptions C116_ids_do_not_matter.

(** Ids turned round: 1, 2, 3 become 9, 8, 7. *)
Example C116_case :
  let p := Profile 1 [1%Z; 2%Z] [3%Z] in let p' := Profile 5 [8%Z; 9%Z] [7%Z] in
  api_profile p /\ api_profile p' /\ renamed (fun x => 10 - x)%Z (p_likes p) (p_likes p') /\
  renamed (fun x => 10 - x)%Z (p_dislikes p) (p_dislikes p').
Proof.
  cbn zeta. split; [exists 1%Z, [OLike 2; ODislike 3; OLike 1]; split; [repeat constructor; done|done]|].
  split; [exists 5%Z, [OLike 8; ODislike 7; OLike 9]; split; [repeat constructor; done|done]|].
  unfold renamed. cbn [p_likes p_dislikes]. split; intros y; split.
  - rewrite !elem_of_cons, elem_of_nil. intros [-> | [-> | []]]; [exists 2%Z|exists 1%Z]; set_solver.
  - intros (x & Hx & ->). rewrite !elem_of_cons, elem_of_nil in *. lia.
  - rewrite !elem_of_cons, elem_of_nil. intros [-> | []]. exists 3%Z. set_solver.
  - intros (x & Hx & ->). rewrite !elem_of_cons, elem_of_nil in *. lia.
Qed.

(** * C117
    likenamespace.go:85-87: "0.5 means that likes and dislikes has equal effect on
    similarity".  Equal effect: exchanging what the users like with what they dislike
    does not change their similarity. *)
Definition mirrored (p p' : profile) : Prop :=
  p_likes p' = p_dislikes p /\ p_dislikes p' = p_likes p.

Definition equal_effect (f : f32) (eps : R) : Prop :=
  forall fu oob p q p' q' r r', api_profile p -> api_profile q -> api_profile p' -> api_profile q' ->
  mirrored p p' -> mirrored q q' ->
  (likes_of p q <= 2 ^ 24)%nat -> (dislikes_of p q <= 2 ^ 24)%nat ->
  compute_similarity fu oob p q f = Ret r -> is_finite r = true ->
  compute_similarity fu oob p' q' f = Ret r' -> is_finite r' = true -> Rabs (B2R r - B2R r') <= eps.

Definition grumbler : profile := Profile 1 [1%Z] [2%Z].
Definition fan : profile := Profile 2 [1%Z] [].
Definition grumbler' : profile := Profile 1 [2%Z] [1%Z].
Definition fan' : profile := Profile 2 [] [1%Z].

Lemma persons_ok : api_profile grumbler /\ api_profile fan /\ api_profile grumbler' /\ api_profile fan'.
Proof.
  split; [exists 1%Z, [OLike 1; ODislike 2]; split; [repeat constructor; done|done]|].
  split; [exists 2%Z, [OLike 1]; split; [repeat constructor; done|done]|].
  split; [exists 1%Z, [OLike 2; ODislike 1]; split; [repeat constructor; done|done]|].
  exists 2%Z, [ODislike 1]; split; [repeat constructor; done|done].
Qed.

(** False for 0.5, and for every factor below 1: a single dislike weighs nothing, so that
    100 turns into 0. *)
Theorem C117_equal_effect_refuted :
  forall f eps, is_finite f = true -> 0 <= B2R f < 1 -> eps < 100 -> ~ equal_effect f eps.
Proof.
  intros f eps Ff Bf He H. destruct persons_ok as (A1 & A2 & A3 & A4).
  assert (Bf' : 0 <= B2R f <= 1) by lra.
  assert (W : dislikes_weight 1 (B2R f) = 0%Z).
  { unfold dislikes_weight. change (IZR (Z.of_nat 1)) with 1. rewrite rnd_1, Rmult_1_l.
    rewrite (is_val_format f (B2R f)) by done. rewrite Ztrunc_floor by lra.
    apply Zfloor_imp. exact Bf. }
  destruct (similarity_near NoFuse (fun _ => 0%Z) grumbler fan f (api_profile_inv _ A1) (api_profile_inv _ A2)
    ltac:(done) ltac:(done) Ff Bf') as (r & E & F & _ & H1 & _); [left; done|].
  destruct (similarity_near NoFuse (fun _ => 0%Z) grumbler' fan' f (api_profile_inv _ A3) (api_profile_inv _ A4)
    ltac:(done) ltac:(done) Ff Bf') as (r' & E' & F' & _ & H2 & _); [left; done|].
  assert (V : B2R r = 100).
  { refine (full_score NoFuse (fun _ => 0%Z) grumbler fan f r (api_profile_inv _ A1) (api_profile_inv _ A2)
      _ _ Ff Bf' E F _ _); try done. left. exact W. }
  assert (V' : B2R r' = 0).
  { cbn [p_likes p_dislikes grumbler' fan'] in H2.
    change (union_size [1%Z] [1%Z]) with 1%nat in H2. change (union_size [2%Z] []) with 1%nat in H2.
    change (common [2%Z] []) with 0%nat in H2. rewrite W in H2. unfold wmean, jac in H2.
    change (Z.of_nat 0) with 0%Z in H2. change (Z.of_nat 1) with 1%Z in H2.
    replace (100 * _) with 0 in H2 by (field; lra).
    rewrite Rmult_0_l, Rminus_0_r in H2. pose proof (Rabs_pos (B2R r')) as Hp.
    destruct (Req_dec (B2R r') 0) as [|Hn]; [done|]. apply Rabs_no_R0 in Hn. lra. }
  specialize (H NoFuse (fun _ => 0%Z) grumbler fan grumbler' fan' r r' A1 A2 A3 A4
    ltac:(done) ltac:(done)).
  assert (L : forall n, n = 1%nat -> (n <= 2 ^ 24)%nat).
  { intros n ->. apply Nat2Z.inj_le. rewrite Nat2Z.inj_pow. lia. }
  specialize (H (L _ eq_refl) (L _ eq_refl) E F E' F'). rewrite V, V', Rminus_0_r, Rabs_pos_eq in H by lra. lra.
Qed.
Print Assumptions C117_equal_effect_refuted.

(** What holds: with the factor 1 they have, up to 2^-11. *)
Theorem C117_equal_effect_partial :
  forall f, is_finite f = true -> B2R f = 1 ->
  forall fu oob p q p' q' r r', api_profile p -> api_profile q -> api_profile p' -> api_profile q' ->
  fits_memory p -> fits_memory q -> mirrored p p' -> mirrored q q' ->
  (likes_of p q <= 2 ^ 24)%nat -> (dislikes_of p q <= 2 ^ 24)%nat ->
  compute_similarity fu oob p q f = Ret r -> is_finite r = true ->
  compute_similarity fu oob p' q' f = Ret r' -> is_finite r' = true ->
  Rabs (B2R r - B2R r') <= / 2 ^ 11.
Proof.
  intros f Ff Vf fu oob p q p' q' r r' A1 A2 A3 A4 Mp Mq [Ep Ep'] [Eq Eq'] N1 N2 E F E' F'.
  assert (Mp' : fits_memory p') by (destruct Mp; split; by rewrite ?Ep, ?Ep').
  assert (Mq' : fits_memory q') by (destruct Mq; split; by rewrite ?Eq, ?Eq').
  assert (Bf : 0 <= B2R f <= 1) by lra.
  assert (K : forall a b s, api_profile a -> api_profile b -> fits_memory a -> fits_memory b ->
    (dislikes_of a b <= 2 ^ 24)%nat -> compute_similarity fu oob a b f = Ret s -> is_finite s = true ->
    let m := mean a b (INR (likes_of a b)) (INR (dislikes_of a b)) in
    0 <= m <= 100 /\ Rabs (B2R s - m) <= m / 2 ^ 19).
  { intros a b s Aa Ab Ma Mb Nab Es Fs m.
    pose proof (finite_weight fu oob a b f s (api_profile_inv _ Aa) (api_profile_inv _ Ab) Ma Mb Ff Bf Es Fs) as W.
    destruct (similarity_near fu oob a b f (api_profile_inv _ Aa) (api_profile_inv _ Ab) Ma Mb Ff Bf W)
      as (s' & Es' & _ & B & H & _). rewrite Es in Es'. injection Es' as <-.
    assert (Ew : IZR (dislikes_weight (dislikes_of a b) (B2R f)) = INR (dislikes_of a b)).
    { assert (Hz : (Z.of_nat (dislikes_of a b) <= 2 ^ 24)%Z).
      { apply Nat2Z.inj_le in Nab. rewrite Nat2Z.inj_pow in Nab. exact Nab. }
      unfold dislikes_weight. rewrite (rnd_int (Z.of_nat (dislikes_of a b))) by lia.
      rewrite Vf, Rmult_1_r, rnd_int, Ztrunc_IZR by lia. by rewrite INR_IZR_INZ. }
    fold (likes_of a b) (dislikes_of a b) in B, H. rewrite Ew in B, H.
    unfold wmean, jac in B, H. rewrite <- !INR_IZR_INZ in B, H.
    change (bpow radix2 (-19)) with (/ IZR 524288) in H.
    unfold m, mean, jaccard, Rdiv at 4. replace (2 ^ 19) with (IZR 524288) by ring.
    split; [exact B|exact H]. }
  destruct (K p q r A1 A2 Mp Mq N2 E F) as [B1 H1].
  destruct (K p' q' r' A3 A4 Mp' Mq') as [B2 H2]; [|done|done|].
  { unfold dislikes_of. by rewrite Ep', Eq'. }
  cbv zeta in *.
  assert (Em : mean p' q' (INR (likes_of p' q')) (INR (dislikes_of p' q')) =
               mean p q (INR (likes_of p q)) (INR (dislikes_of p q))).
  { unfold mean, likes_of, dislikes_of. rewrite Ep, Eq, Ep', Eq'.
    rewrite (Rplus_comm (INR (union_size (p_dislikes p) (p_dislikes q)))).
    by rewrite (Rplus_comm (jaccard (p_dislikes p) (p_dislikes q) * _)). }
  rewrite Em in B2, H2.
  set (m := mean _ _ _ _) in *. replace (2 ^ 19) with (IZR 524288) in * by ring.
  replace (2 ^ 11) with (IZR 2048) by ring. apply Rabs_le_inv in H1, H2. apply Rabs_le. lra.
Qed.
Print Assumptions C117_equal_effect_partial.

Example C117_case : mirrored grumbler grumbler' /\ mirrored fan fan' /\
  exists r r', compute_similarity NoFuse (fun _ => 0%Z) grumbler fan (f32_of_int 1) = Ret r /\
    compute_similarity NoFuse (fun _ => 0%Z) grumbler' fan' (f32_of_int 1) = Ret r' /\
    is_finite r = true /\ is_finite r' = true /\ B2R r = 50 /\ B2R r' = 50.
Proof.
  split; [done|]. split; [done|].
  assert (E1 : match compute_similarity NoFuse (fun _ => 0%Z) grumbler fan (f32_of_int 1) with
    | Ret r => B2SF r = SpecFloat.S754_finite false 13107200 (-18) | _ => False end) by (vm_compute; reflexivity).
  assert (E2 : match compute_similarity NoFuse (fun _ => 0%Z) grumbler' fan' (f32_of_int 1) with
    | Ret r => B2SF r = SpecFloat.S754_finite false 13107200 (-18) | _ => False end) by (vm_compute; reflexivity).
  apply sf_val in E1 as (r1 & E1 & F1 & V1). apply sf_val in E2 as (r2 & E2 & F2 & V2).
  exists r1, r2. do 4 (split; [done|]). rewrite V1, V2. change (bpow radix2 (-18)) with (/ IZR 262144). lra.
Qed.
