(** Property C87: what number ComputeSimilarity approximates, and how well.
    [fu] ranges over the ways a Go compiler may fuse the weighted sum, [oob] over
    the results of int(x) for x outside the range of int. *)
From Coq Require Import Reals Lra.
From Flocq Require Import Core.Core IEEE754.BinarySingleNaN.
From Verif Require Import Base Profile Spec ProfileFacts Similarity SimilarityFacts AccuracyFacts.
Open Scope R_scope.

(** The Jaccard index as a real number; 0 for two empty sets (Coq's x / 0 is 0 * / 0). *)
Definition jaccard (A B : list Z) : R := INR (common A B) / INR (union_size A B).

(** The mean of the two Jaccard indices in percent, likes weighing [l] and
    dislikes weighing [d]. *)
Definition mean (p q : profile) (l d : R) : R :=
  100 * ((jaccard (p_likes p) (p_likes q) * l + jaccard (p_dislikes p) (p_dislikes q) * d) / (l + d)).

(** * C87
    Full claim (the comment over ComputeSimilarity: dislikes count by
    dislikeFactor): the result is, up to rounding, the mean with weights
    |likes union| and factor * |dislikes union|.  False: the second weight is
    truncated to an integer, which moves the result by more than 33 points. *)
Theorem C87_weighted_mean_refuted :
  exists p q f, api_profile p /\ api_profile q /\ fits_memory p /\ fits_memory q /\
    is_finite f = true /\ 0 <= B2R f <= 1 /\
    forall fu oob, exists r, compute_similarity fu oob p q f = Ret r /\ is_finite r = true /\
      B2R r - mean p q (INR (union_size (p_likes p) (p_likes q)))
                       (INR (union_size (p_dislikes p) (p_dislikes q)) * B2R f) > 33.
Proof.
  destruct weight_truncated as (p & q & f & Ap & Aq & Mp & Mq & Ff & Vf & Ul & Cl & Ud & Cd & H).
  exists p, q, f. do 5 (split; [done|]). split; [rewrite Vf; lra|]. intros fu oob.
  destruct (H fu oob) as (r & E & Fr & Vr). exists r. split; [done|]. split; [done|].
  unfold mean, jaccard. rewrite Vr, Vf, Ul, Cl, Ud, Cd. cbn [INR]. lra.
Qed.
Print Assumptions C87_weighted_mean_refuted.

(** With the truncated weight the result is correct to a relative error of 2^-19;
    against the claimed mean the error is at most 100 / (sum of the weights) + 2^-11. *)
Theorem C87_weighted_mean_partial :
  forall fu oob p q f,
  api_profile p -> api_profile q -> fits_memory p -> fits_memory q ->
  is_finite f = true -> 0 <= B2R f <= 1 ->
  let nl := union_size (p_likes p) (p_likes q) in
  let nd := union_size (p_dislikes p) (p_dislikes q) in
  let w := dislikes_weight nd (B2R f) in
  (nl <> 0%nat \/ w <> 0%Z) ->
  exists r, compute_similarity fu oob p q f = Ret r /\ is_finite r = true /\
    Rabs (B2R r - mean p q (INR nl) (IZR w)) <= mean p q (INR nl) (IZR w) / 2 ^ 19 /\
    Rabs (IZR w - INR nd * B2R f) <= 1 + INR nd * B2R f / 2 ^ 19 /\
    Rabs (B2R r - mean p q (INR nl) (INR nd * B2R f)) <= 100 / (INR nl + INR nd * B2R f) + / 2 ^ 11.
Proof.
  intros fu oob p q f Hp%api_profile_inv Hq%api_profile_inv Mp Mq Ff Bf nl nd w Hpos.
  destruct (similarity_near fu oob p q f Hp Hq Mp Mq Ff Bf Hpos) as (r & E & Fr & _ & E1 & E2).
  exists r. split; [done|]. split; [done|].
  pose proof Hp as (_ & P2 & _). pose proof Hq as (_ & Q2 & _).
  pose proof (union_size_bound _ _ P2 Q2 (proj2 Mp) (proj2 Mq)) as HD.
  pose proof (weight_error (Z.of_nat nd) (B2R f) ltac:(unfold nd; lia) Bf) as We.
  fold nl nd in E1, E2. unfold mean, jaccard. fold nl nd. rewrite !INR_IZR_INZ.
  unfold wmean, jac in E1, E2. change (bpow radix2 (-19)) with (/ IZR 524288) in *.
  change (bpow radix2 (-11)) with (/ IZR 2048) in *.
  replace (2 ^ 19) with (IZR 524288) by ring. replace (2 ^ 11) with (IZR 2048) by ring.
  split; [exact E1|]. split; [exact We|exact E2].
Qed.
Print Assumptions C87_weighted_mean_partial.

(** Likes {3,8} and {8,9}, dislikes {4} and {4,5}, factor 1: the mean is
    100 * (1/3 * 3 + 1/2 * 2) / 5 = 40. *)
Example C87_case :
  let p := Profile 1 [3%Z; 8%Z] [4%Z] in let q := Profile 2 [8%Z; 9%Z] [4%Z; 5%Z] in
  api_profile p /\ api_profile q /\ fits_memory p /\ fits_memory q /\
  union_size (p_likes p) (p_likes q) = 3%nat /\ mean p q 3 2 = 40 /\
  forall fu oob, exists r, compute_similarity fu oob p q (f32_of_int 1) = Ret r /\
    Rabs (B2R r - 40) <= 40 / 2 ^ 19.
Proof.
  intros p q.
  assert (Ap : api_profile p).
  { exists 1%Z, [OLike 8; ODislike 4; OLike 3]. split; [repeat constructor; done|done]. }
  assert (Aq : api_profile q).
  { exists 2%Z, [OLike 8; ODislike 4; OLike 9; ODislike 5]. split; [repeat constructor; done|done]. }
  assert (M : mean p q 3 2 = 40).
  { unfold mean, jaccard. replace (common (p_likes p) (p_likes q)) with 1%nat by reflexivity.
    replace (union_size (p_likes p) (p_likes q)) with 3%nat by reflexivity.
    replace (common (p_dislikes p) (p_dislikes q)) with 1%nat by reflexivity.
    replace (union_size (p_dislikes p) (p_dislikes q)) with 2%nat by reflexivity. cbn [INR]. field. }
  do 4 (split; [done|]). split; [reflexivity|]. split; [exact M|]. intros fu oob.
  assert (V1 : is_val (f32_of_int 1) 1).
  { rewrite <- rnd_1. apply of_int_val. rewrite Rabs_right by lra.
    pose proof size_bound_big. pose proof size_bound_pos. lra. }
  destruct V1 as [F1 V1].
  destruct (C87_weighted_mean_partial fu oob p q (f32_of_int 1) Ap Aq ltac:(done) ltac:(done) F1
    ltac:(rewrite V1; lra) ltac:(left; by compute)) as (r & E & _ & H & _).
  exists r. split; [exact E|]. rewrite V1 in H.
  assert (W : dislikes_weight (union_size (p_dislikes p) (p_dislikes q)) 1 = 2%Z).
  { unfold dislikes_weight. replace (union_size (p_dislikes p) (p_dislikes q)) with 2%nat by reflexivity.
    change (Z.of_nat 2) with 2%Z. rewrite (rnd_int 2) by lia. rewrite Rmult_1_r, (rnd_int 2) by lia. apply Ztrunc_IZR. }
  rewrite W in H. replace (INR (union_size (p_likes p) (p_likes q))) with 3 in H
    by (replace (union_size (p_likes p) (p_likes q)) with 3%nat by reflexivity; cbn [INR]; lra).
  rewrite M in H. exact H.
Qed.

(** * C09 for slices of every size
    Slices with more than 2^24 elements together: their sizes are rounded before they are
    divided.  The size returned is still exact, the similarity has a relative error
    of at most 2^-21. *)
Theorem C09_any_size :
  forall A B, strictly_ascending A -> strictly_ascending B ->
  (Z.of_nat (length A) < 2 ^ 60)%Z -> (Z.of_nat (length B) < 2 ^ 60)%Z ->
  exists s, similarity_between_sets A B = Ret (s, Z.of_nat (union_size A B)) /\
    is_finite s = true /\ 0 <= B2R s <= 1 /\
    Rabs (B2R s - jaccard A B) <= jaccard A B / 2 ^ 21.
Proof.
  intros A B HA HB LA LB.
  pose proof (union_size_bound _ _ HA HB LA LB) as Hu.
  rewrite similarity_between_sets_spec by done. fold (set_sim A B).
  destruct (set_sim_near A B) as (a & [Fa Va] & Ba & Na); [lia|].
  exists (set_sim A B). split; [reflexivity|]. split; [exact Fa|]. rewrite Va. split; [exact Ba|].
  unfold jac in Na. unfold jaccard. rewrite !INR_IZR_INZ.
  set (J := IZR (Z.of_nat (common A B)) / IZR (Z.of_nat (union_size A B))) in *.
  destruct Na as (J0 & N1 & N2). unfold ulps in N1, N2.
  change (bpow radix2 (-23)) with (/ IZR 8388608) in N1, N2.
  set (e := / IZR 8388608) in *.
  assert (He : e = / 8388608) by reflexivity.
  assert (H3 : (1 + e) ^ 3 <= 1 + / 2 ^ 21 * (7 / 8)) by (rewrite He; lra).
  apply Rabs_le. split.
  - assert (J <= a * (1 + / 2 ^ 21 * (7 / 8))).
    { eapply Rle_trans; [exact N1|]. apply Rmult_le_compat_l; [lra|exact H3]. }
    assert (a <= J * (1 + / 2 ^ 21 * (7 / 8))).
    { eapply Rle_trans; [exact N2|]. apply Rmult_le_compat_l; [lra|exact H3]. }
    lra.
  - assert (a <= J * (1 + / 2 ^ 21 * (7 / 8))).
    { eapply Rle_trans; [exact N2|]. apply Rmult_le_compat_l; [lra|exact H3]. }
    lra.
Qed.
Print Assumptions C09_any_size.

Lemma seqZ_ascending m n : strictly_ascending (seqZ m n).
Proof.
  intros i j x y Hij Hx Hy. apply lookup_seqZ in Hx as [-> _]. apply lookup_seqZ in Hy as [-> _]. lia.
Qed.

Lemma one_of n : (0 < n)%Z ->
  common [0%Z] (seqZ 0 n) = 1%nat /\ union_size [0%Z] (seqZ 0 n) = Z.to_nat n.
Proof.
  intros Hn. unfold common, union_size. split.
  - replace (list_to_set [0%Z] ∩ list_to_set (seqZ 0 n) : gset Z) with ({[0%Z]} : gset Z); [apply size_singleton|].
    apply set_eq. intros x. rewrite elem_of_intersection, !elem_of_list_to_set, elem_of_seqZ, elem_of_singleton, elem_of_list_singleton. lia.
  - replace (list_to_set [0%Z] ∪ list_to_set (seqZ 0 n) : gset Z) with (list_to_set (seqZ 0 n) : gset Z).
    + rewrite size_list_to_set by apply NoDup_seqZ. apply seqZ_length.
    + apply set_eq. intros x. rewrite elem_of_union, !elem_of_list_to_set, elem_of_seqZ, elem_of_list_singleton. lia.
Qed.

Lemma rnd_pow24 : rnd (IZR 16777217) = IZR 16777216.
Proof.
  destruct (weight_val 16777217) as (s & [_ V] & Es & _); [lia|]. rewrite <- Es, <- V.
  assert (E : B2SF (f32_of_int 16777217) = SpecFloat.S754_finite false 8388608 1) by (vm_compute; reflexivity).
  rewrite <- SF2R_B2SF, E. unfold SF2R, F2R. cbn [Fnum Fexp cond_Zopp]. change (bpow radix2 1) with (IZR 2). lra.
Qed.

(** 2^-24 is more than half a unit in the last place away from 1 / (2^24 + 1). *)
Lemma rnd_not_pow : rnd (1 / IZR 16777217) <> / IZR 16777216.
Proof.
  set (y := 1 / IZR 16777217). intros E.
  assert (Hy : bpow radix2 (-25) <= y < bpow radix2 (-24)).
  { change (bpow radix2 (-25)) with (/ IZR 33554432). change (bpow radix2 (-24)) with (/ IZR 16777216).
    unfold y. split; [lra|]. lra. }
  assert (Hm : mag radix2 y = (-24)%Z :> Z).
  { apply mag_unique_pos. exact Hy. }
  pose proof (error_le_half_ulp radix2 (FLT_exp (-149) 24) (fun x => negb (Z.even x)) y) as H.
  assert (Hy0 : y <> 0) by (pose proof (bpow_gt_0 radix2 (-25)); lra).
  rewrite ulp_neq_0 in H by exact Hy0. unfold cexp in H. rewrite Hm in H.
  change (FLT_exp (-149) 24 (-24)) with (-48)%Z in H. change (bpow radix2 (-48)) with (/ IZR 281474976710656) in H.
  change (round radix2 (FLT_exp (-149) 24) ZnearestE y) with (rnd y) in H. rewrite E in H.
  apply Rabs_le_inv in H. unfold y in H. lra.
Qed.

Lemma rnd_pow : rnd (1 / IZR 16777216) = / IZR 16777216.
Proof.
  assert (E : 1 / IZR 16777216 = bpow radix2 (-24)).
  { change (bpow radix2 (-24)) with (/ IZR 16777216). unfold Rdiv. apply Rmult_1_l. }
  rewrite E, rnd_id; [rewrite <- E; unfold Rdiv; apply Rmult_1_l|].
  apply generic_format_bpow. vm_compute. discriminate.
Qed.

Lemma sim_beyond A B : strictly_ascending A -> strictly_ascending B ->
  Z.of_nat (common A B) = 1%Z -> Z.of_nat (union_size A B) = 16777217%Z ->
  exists s, similarity_between_sets A B = Ret (s, Z.of_nat (union_size A B)) /\
    B2R s <> round radix2 (FLT_exp (-149) 24) ZnearestE (INR (common A B) / INR (union_size A B)).
Proof.
  intros HA HB HC HU. exists (set_sim A B).
  split; [rewrite similarity_between_sets_spec by done; reflexivity|].
  rewrite !INR_IZR_INZ. unfold set_sim. rewrite HU, HC. change (16777217 =? 0)%Z with false. cbv iota.
  destruct (set_sim_val 1 16777217) as (s & [_ Vs] & Es & _); [lia|lia|]. rewrite Vs, Es, rnd_pow24, rnd_1.
  rewrite rnd_pow. intros H. exact (rnd_not_pow (eq_sym H)).
Qed.

(** With one element more the similarity need not be the nearest float32: one element of
    2^24 + 1 is taken for one of 2^24. *)
Theorem C09_beyond_refuted :
  exists A B s, strictly_ascending A /\ strictly_ascending B /\ Z.of_nat (union_size A B) = (2 ^ 24 + 1)%Z /\
    similarity_between_sets A B = Ret (s, Z.of_nat (union_size A B)) /\
    B2R s <> round radix2 (FLT_exp (-149) 24) ZnearestE (INR (common A B) / INR (union_size A B)).
Proof.
  assert (G : forall n, n = 16777217%Z -> exists A B, strictly_ascending A /\ strictly_ascending B /\
    Z.of_nat (common A B) = 1%Z /\ Z.of_nat (union_size A B) = n).
  { intros n Hn. destruct (one_of n) as [HC HU]; [lia|]. exists [0%Z], (seqZ 0 n).
    split; [|split; [apply seqZ_ascending|]].
    - intros i j x y Hij Hx Hy. destruct i; [destruct j; [lia|destruct j; done]|destruct i; done].
    - rewrite HC, HU, Z2Nat.id by lia. done. }
  destruct (G _ eq_refl) as (A & B & HA & HB & HC & HU).
  destruct (sim_beyond A B HA HB HC HU) as (s & E & N).
  exists A, B, s. split; [exact HA|]. split; [exact HB|]. split; [exact HU|]. split; [exact E|exact N].
Qed.
Print Assumptions C09_beyond_refuted.
