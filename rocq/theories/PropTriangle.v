(** Property C115: two users who are both close to a third are close to each other
    (internal/domain/profile.go).  [fu] ranges over the ways a Go compiler may fuse the
    weighted sum, [oob] over the results of int(x) for x outside the range of int. *)
From Coq Require Import Reals Lra.
From Flocq Require Import Core.Core IEEE754.BinarySingleNaN.
From Verif Require Import Base Profile Spec ProfileFacts Similarity SimilarityFacts AccuracyFacts MonotoneFacts
  PropAccuracy PropMonotone TriangleFacts.
Open Scope R_scope.

(** * C115
    The distance of two users is what is missing from 100.  Full claim: it is at most the
    distance of the first to a third user plus the distance of the third to the second. *)
Definition close_to_a_third (eps : R) : Prop :=
  forall fu oob p q s f r1 r2 r3, api_profile p -> api_profile q -> api_profile s ->
  fits_memory p -> fits_memory q -> fits_memory s -> is_finite f = true -> 0 <= B2R f <= 1 ->
  compute_similarity fu oob p q f = Ret r1 -> is_finite r1 = true ->
  compute_similarity fu oob q s f = Ret r2 -> is_finite r2 = true ->
  compute_similarity fu oob p s f = Ret r3 -> is_finite r3 = true ->
  100 - B2R r3 <= (100 - B2R r1) + (100 - B2R r2) + eps.

Definition user_a : profile := Profile 1 [2%Z] [3%Z].
Definition user_b : profile := Profile 2 [2%Z] [].
Definition user_c : profile := Profile 3 [2%Z] [1%Z].

Lemma users_ok : api_profile user_a /\ api_profile user_b /\ api_profile user_c.
Proof.
  split; [exists 1%Z, [OLike 2; ODislike 3]; split; [repeat constructor; done|done]|].
  split; [exists 2%Z, [OLike 2]; split; [repeat constructor; done|done]|].
  exists 3%Z, [OLike 2; ODislike 1]; split; [repeat constructor; done|done].
Qed.

Lemma users_fit : fits_memory user_a /\ fits_memory user_b /\ fits_memory user_c.
Proof. done. Qed.

(** False: with the factor 1/2 one dislike of one user alone weighs nothing and two
    dislikes weigh 1, so that A and C are both at distance 0 from B and at distance 50
    from each other. *)
Theorem C115_close_to_a_third_refuted : forall eps, eps < 50 -> ~ close_to_a_third eps.
Proof.
  intros eps He H. destruct half_val as [Hf Hv]. destruct users_ok as (Aa & Ab & Ac).
  assert (E1 : match compute_similarity NoFuse (fun _ => 0%Z) user_a user_b half with
    | Ret r => B2SF r = SpecFloat.S754_finite false 13107200 (-17) | _ => False end) by (vm_compute; reflexivity).
  assert (E2 : match compute_similarity NoFuse (fun _ => 0%Z) user_b user_c half with
    | Ret r => B2SF r = SpecFloat.S754_finite false 13107200 (-17) | _ => False end) by (vm_compute; reflexivity).
  assert (E3 : match compute_similarity NoFuse (fun _ => 0%Z) user_a user_c half with
    | Ret r => B2SF r = SpecFloat.S754_finite false 13107200 (-18) | _ => False end) by (vm_compute; reflexivity).
  apply sf_val in E1 as (r1 & E1 & F1 & V1). apply sf_val in E2 as (r2 & E2 & F2 & V2).
  apply sf_val in E3 as (r3 & E3 & F3 & V3).
  specialize (H NoFuse (fun _ => 0%Z) user_a user_b user_c half r1 r2 r3 Aa Ab Ac).
  rewrite V1, V2, V3 in H. change (bpow radix2 (-17)) with (/ IZR 131072) in H.
  change (bpow radix2 (-18)) with (/ IZR 262144) in H.
  assert (Bf : 0 <= B2R half <= 1) by (rewrite Hv; lra).
  destruct users_fit as (Ma & Mb & Mc). specialize (H Ma Mb Mc Hf Bf E1 F1 E2 F2 E3 F3). lra.
Qed.
Print Assumptions C115_close_to_a_third_refuted.

Lemma mean_agreement p q f : 0 <= f ->
  0 < INR (likes_of p q) + INR (dislikes_of p q) * f ->
  mean p q (INR (likes_of p q)) (INR (dislikes_of p q) * f) =
  100 * agreement (p_likes p) (p_dislikes p) (p_likes q) (p_dislikes q) f.
Proof.
  intros Hf Hu. unfold mean, agreement, likes_of, dislikes_of in *. f_equal. f_equal.
  assert (J : forall A B, jaccard A B * INR (union_size A B) = INR (common A B)).
  { intros A B. unfold jaccard. destruct (decide (union_size A B = 0%nat)) as [E|E].
    - pose proof (common_le_union A B). rewrite E in *. replace (common A B) with 0%nat by lia. cbn. lra.
    - field. apply not_0_INR. lia. }
  rewrite <- Rmult_assoc, !J. ring.
Qed.

(** What holds: the inequality up to 100 / (sum of the weights) + 2^-11 for each of the three
    similarities ... *)
Theorem C115_close_to_a_third_partial :
  forall fu oob p q s f r1 r2 r3, api_profile p -> api_profile q -> api_profile s ->
  fits_memory p -> fits_memory q -> fits_memory s -> is_finite f = true -> 0 <= B2R f <= 1 ->
  compute_similarity fu oob p q f = Ret r1 -> is_finite r1 = true ->
  compute_similarity fu oob q s f = Ret r2 -> is_finite r2 = true ->
  compute_similarity fu oob p s f = Ret r3 -> is_finite r3 = true ->
  let err a b := 100 / (INR (likes_of a b) + INR (dislikes_of a b) * B2R f) + / 2 ^ 11 in
  100 - B2R r3 <= (100 - B2R r1) + (100 - B2R r2) + (err p q + err q s + err p s).
Proof.
  intros fu oob p q s f r1 r2 r3 Ap Aq As Mp Mq Ms Ff Bf E1 F1 E2 F2 E3 F3 err.
  assert (K : forall a b r, api_profile a -> api_profile b -> fits_memory a -> fits_memory b ->
    compute_similarity fu oob a b f = Ret r -> is_finite r = true ->
    0 < INR (likes_of a b) + INR (dislikes_of a b) * B2R f /\
    Rabs (B2R r - 100 * agreement (p_likes a) (p_dislikes a) (p_likes b) (p_dislikes b) (B2R f)) <= err a b).
  { intros a b r Aa Ab Ma Mb E F.
    pose proof (finite_weight fu oob a b f r (api_profile_inv _ Aa) (api_profile_inv _ Ab) Ma Mb Ff Bf E F) as W.
    pose proof (weights_pos _ _ _ Bf W) as P. rewrite <- !INR_IZR_INZ in P. split; [exact P|].
    destruct (C87_weighted_mean_partial fu oob a b f Aa Ab Ma Mb Ff Bf W) as (r' & E' & _ & _ & _ & H).
    rewrite E in E'. injection E' as <-. rewrite <- mean_agreement; [exact H|lra|exact P]. }
  destruct (K p q r1 Ap Aq Mp Mq E1 F1) as [P1 H1].
  destruct (K q s r2 Aq As Mq Ms E2 F2) as [P2 H2].
  destruct (K p s r3 Ap As Mp Ms E3 F3) as [P3 H3].
  pose proof (agreement_triangle (p_likes p) (p_dislikes p) (p_likes q) (p_dislikes q) (p_likes s) (p_dislikes s)
    (B2R f) (proj1 Bf) P1 P2 P3) as T.
  apply Rabs_le_inv in H1, H2, H3. lra.
Qed.
Print Assumptions C115_close_to_a_third_partial.

(** ... and up to 2^-10 when dislikes count nothing or as much as likes, for up to 2^24
    items. *)
Theorem C115_whole_factor_partial :
  forall fu oob p q s f r1 r2 r3, api_profile p -> api_profile q -> api_profile s ->
  fits_memory p -> fits_memory q -> fits_memory s -> is_finite f = true -> B2R f = 0 \/ B2R f = 1 ->
  (dislikes_of p q <= 2 ^ 24)%nat -> (dislikes_of q s <= 2 ^ 24)%nat -> (dislikes_of p s <= 2 ^ 24)%nat ->
  compute_similarity fu oob p q f = Ret r1 -> is_finite r1 = true ->
  compute_similarity fu oob q s f = Ret r2 -> is_finite r2 = true ->
  compute_similarity fu oob p s f = Ret r3 -> is_finite r3 = true ->
  100 - B2R r3 <= (100 - B2R r1) + (100 - B2R r2) + / 2 ^ 10.
Proof.
  intros fu oob p q s f r1 r2 r3 Ap Aq As Mp Mq Ms Ff Vf N1 N2 N3 E1 F1 E2 F2 E3 F3.
  assert (Bf : 0 <= B2R f <= 1) by (destruct Vf as [-> | ->]; lra).
  assert (K : forall a b r, api_profile a -> api_profile b -> fits_memory a -> fits_memory b ->
    (dislikes_of a b <= 2 ^ 24)%nat ->
    compute_similarity fu oob a b f = Ret r -> is_finite r = true ->
    0 < INR (likes_of a b) + INR (dislikes_of a b) * B2R f /\
    Rabs (B2R r - 100 * agreement (p_likes a) (p_dislikes a) (p_likes b) (p_dislikes b) (B2R f)) <=
      100 / 2 ^ 19).
  { intros a b r Aa Ab Ma Mb Nab E F.
    pose proof (finite_weight fu oob a b f r (api_profile_inv _ Aa) (api_profile_inv _ Ab) Ma Mb Ff Bf E F) as W.
    pose proof (weights_pos _ _ _ Bf W) as P. rewrite <- !INR_IZR_INZ in P. split; [exact P|].
    destruct (C87_weighted_mean_partial fu oob a b f Aa Ab Ma Mb Ff Bf W) as (r' & E' & _ & H & _ & _).
    rewrite E in E'. injection E' as <-. fold (likes_of a b) (dislikes_of a b) in H, P, W.
    assert (Ew : IZR (dislikes_weight (dislikes_of a b) (B2R f)) = INR (dislikes_of a b) * B2R f).
    { assert (Hz : (Z.of_nat (dislikes_of a b) <= 2 ^ 24)%Z).
      { apply Nat2Z.inj_le in Nab. rewrite Nat2Z.inj_pow in Nab. exact Nab. }
      unfold dislikes_weight. rewrite (rnd_int (Z.of_nat (dislikes_of a b))) by lia. destruct Vf as [-> | ->].
      - rewrite !Rmult_0_r, rnd_0, (Ztrunc_IZR 0). done.
      - rewrite !Rmult_1_r, rnd_int, Ztrunc_IZR by lia. by rewrite INR_IZR_INZ. }
    rewrite Ew in H. rewrite mean_agreement in H; [|lra|exact P].
    eapply Rle_trans; [exact H|]. apply Rmult_le_compat_r; [apply Rlt_le, Rinv_0_lt_compat, pow_lt; lra|].
    assert (agreement (p_likes a) (p_dislikes a) (p_likes b) (p_dislikes b) (B2R f) <= 1); [|lra].
    unfold agreement, likes_of, dislikes_of in *. apply (Rmult_le_reg_r _ _ _ P). unfold Rdiv.
    rewrite Rmult_assoc, Rinv_l, Rmult_1_r, Rmult_1_l by lra.
    pose proof (le_INR _ _ (common_le_union (p_likes a) (p_likes b))).
    pose proof (Rmult_le_compat_r (B2R f) _ _ (proj1 Bf)
      (le_INR _ _ (common_le_union (p_dislikes a) (p_dislikes b)))). lra. }
  destruct (K p q r1 Ap Aq Mp Mq N1 E1 F1) as [P1 H1].
  destruct (K q s r2 Aq As Mq Ms N2 E2 F2) as [P2 H2].
  destruct (K p s r3 Ap As Mp Ms N3 E3 F3) as [P3 H3].
  pose proof (agreement_triangle (p_likes p) (p_dislikes p) (p_likes q) (p_dislikes q) (p_likes s) (p_dislikes s)
    (B2R f) (proj1 Bf) P1 P2 P3) as T.
  replace (2 ^ 19) with (IZR 524288) in * by ring. replace (2 ^ 10) with (IZR 1024) by ring.
  apply Rabs_le_inv in H1, H2, H3. lra.
Qed.
Print Assumptions C115_whole_factor_partial.

(** Rounding alone breaks it by 2^-17, with the factor 1 and without a dislike. *)
Theorem C115_rounding_refuted :
  exists p q s, api_profile p /\ api_profile q /\ api_profile s /\
  forall fu oob, exists r1 r2 r3,
    compute_similarity fu oob p q (f32_of_int 1) = Ret r1 /\ compute_similarity fu oob q s (f32_of_int 1) = Ret r2 /\
    compute_similarity fu oob p s (f32_of_int 1) = Ret r3 /\
    100 - B2R r3 = (100 - B2R r1) + (100 - B2R r2) + / 2 ^ 17.
Proof.
  exists (Profile 1 [3%Z] []), (Profile 2 [1%Z; 2%Z; 3%Z] []), (Profile 3 [1%Z; 2%Z] []).
  split; [exists 1%Z, [OLike 3]; split; [repeat constructor; done|done]|].
  split; [exists 2%Z, [OLike 1; OLike 2; OLike 3]; split; [repeat constructor; done|done]|].
  split; [exists 3%Z, [OLike 1; OLike 2]; split; [repeat constructor; done|done]|]. intros fu oob.
  assert (E1 : match compute_similarity fu oob (Profile 1 [3%Z] []) (Profile 2 [1%Z; 2%Z; 3%Z] []) (f32_of_int 1) with
    | Ret r => B2SF r = SpecFloat.S754_finite false 8738134 (-18) | _ => False end) by (destruct fu; vm_compute; reflexivity).
  assert (E2 : match compute_similarity fu oob (Profile 2 [1%Z; 2%Z; 3%Z] []) (Profile 3 [1%Z; 2%Z] []) (f32_of_int 1) with
    | Ret r => B2SF r = SpecFloat.S754_finite false 8738134 (-17) | _ => False end) by (destruct fu; vm_compute; reflexivity).
  assert (E3 : match compute_similarity fu oob (Profile 1 [3%Z] []) (Profile 3 [1%Z; 2%Z] []) (f32_of_int 1) with
    | Ret r => B2SF r = SpecFloat.S754_zero false | _ => False end) by (destruct fu; vm_compute; reflexivity).
  apply sf_val in E1 as (r1 & E1 & _ & V1). apply sf_val in E2 as (r2 & E2 & _ & V2).
  apply sf_zero in E3 as (r3 & E3 & _ & V3). exists r1, r2, r3. do 3 (split; [done|]).
  rewrite V1, V2, V3. change (bpow radix2 (-17)) with (/ IZR 131072).
  change (bpow radix2 (-18)) with (/ IZR 262144). replace (2 ^ 17) with (IZR 131072) by ring. lra.
Qed.
Print Assumptions C115_rounding_refuted.

(** The users above with the factor 1: 50, 50 and 33. *)
Example C115_case : api_profile user_a /\ api_profile user_b /\ api_profile user_c /\
  (dislikes_of user_a user_b = 1)%nat /\ (dislikes_of user_a user_c = 2)%nat /\
  exists r1 r2 r3, compute_similarity NoFuse (fun _ => 0%Z) user_a user_b (f32_of_int 1) = Ret r1 /\
    compute_similarity NoFuse (fun _ => 0%Z) user_b user_c (f32_of_int 1) = Ret r2 /\
    compute_similarity NoFuse (fun _ => 0%Z) user_a user_c (f32_of_int 1) = Ret r3 /\
    is_finite r1 = true /\ is_finite r2 = true /\ is_finite r3 = true /\ B2R r1 = 50 /\ B2R r3 < 34.
Proof.
  destruct users_ok as (Aa & Ab & Ac). do 3 (split; [done|]). do 2 (split; [reflexivity|]).
  assert (E1 : match compute_similarity NoFuse (fun _ => 0%Z) user_a user_b (f32_of_int 1) with
    | Ret r => B2SF r = SpecFloat.S754_finite false 13107200 (-18) | _ => False end) by (vm_compute; reflexivity).
  assert (E2 : match compute_similarity NoFuse (fun _ => 0%Z) user_b user_c (f32_of_int 1) with
    | Ret r => B2SF r = SpecFloat.S754_finite false 13107200 (-18) | _ => False end) by (vm_compute; reflexivity).
  assert (E3 : match compute_similarity NoFuse (fun _ => 0%Z) user_a user_c (f32_of_int 1) with
    | Ret r => B2SF r = SpecFloat.S754_finite false 8738134 (-18) | _ => False end) by (vm_compute; reflexivity).
  apply sf_val in E1 as (r1 & E1 & F1 & V1). apply sf_val in E2 as (r2 & E2 & F2 & V2).
  apply sf_val in E3 as (r3 & E3 & F3 & V3). exists r1, r2, r3. do 6 (split; [done|]).
  rewrite V1, V3. change (bpow radix2 (-18)) with (/ IZR 262144). lra.
Qed.
