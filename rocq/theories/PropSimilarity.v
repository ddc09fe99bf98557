(** Properties C09-C12: ComputeSimilarity on binary32 floats.
    [fu] ranges over the ways a Go compiler may fuse the weighted sum, [oob] over
    the results of int(x) for x outside the range of int. *)
From Coq Require Import Reals Lra.
From Flocq Require Import Core.Core IEEE754.BinarySingleNaN.
From Verif Require Import Base Profile Spec ProfileFacts Similarity SimilarityFacts.
Open Scope Z_scope.

(** * C09: the nearest float32 (ties to even) to |A n B| / |A u B|. *)
Theorem C09_jaccard_correctly_rounded :
  forall A B, strictly_ascending A -> strictly_ascending B ->
  Z.of_nat (union_size A B) <= 2 ^ 24 ->
  exists s, similarity_between_sets A B = Ret (s, Z.of_nat (union_size A B)) /\
    is_finite s = true /\
    (union_size A B = 0%nat -> B2R s = 0%R) /\
    (union_size A B <> 0%nat ->
     B2R s = round radix2 (FLT_exp (-149) 24) ZnearestE
               (INR (common A B) / INR (union_size A B))%R).
Proof. exact jaccard_rounded. Qed.
Print Assumptions C09_jaccard_correctly_rounded.

Example C09_case : common [1; 2; 5] [2; 5; 9] = 2%nat /\ union_size [1; 2; 5] [2; 5; 9] = 4%nat /\
  match similarity_between_sets [1; 2; 5] [2; 5; 9] with
  | Ret (s, 4) => B2SF s = B2SF half | _ => False end.
Proof. vm_compute. done. Qed.

(** * C10 *)
Theorem C10_similarity_symmetric :
  forall fu oob p q f, api_profile p -> api_profile q ->
  exists r, compute_similarity fu oob p q f = Ret r /\ compute_similarity fu oob q p f = Ret r.
Proof. exact similarity_symmetric_api. Qed.
Print Assumptions C10_similarity_symmetric.

Example C10_case : api_profile (Profile 1 [3; 8] [4]) /\ api_profile (Profile 2 [8; 9] []).
Proof.
  split.
  - exists 1, [OLike 8; ODislike 4; OLike 3]. split; [repeat constructor; done|done].
  - exists 2, [OLike 8; OLike 9]. split; [repeat constructor; done|done].
Qed.

(** * C11
    Full claim: a number in [0,100] for every pair and factor in [0,1].  False:
    when both weights are 0 the result is NaN, even for equal non-empty profiles. *)
Theorem C11_similarity_range_refuted :
  exists p f, api_profile p /\ fits_memory p /\ p_dislikes p <> [] /\
    is_finite f = true /\ (0 < B2R f <= 1)%R /\
    forall fu oob, compute_similarity fu oob p p f = Ret B754_nan.
Proof. exact similarity_not_a_number. Qed.
Print Assumptions C11_similarity_range_refuted.

(** Exactly the 0/0 case is missing. *)
Theorem C11_similarity_range_partial :
  forall fu oob p q f,
  api_profile p -> api_profile q -> fits_memory p -> fits_memory q ->
  is_finite f = true -> (0 <= B2R f <= 1)%R ->
  let lw := union_size (p_likes p) (p_likes q) in
  let dw := dislikes_weight (union_size (p_dislikes p) (p_dislikes q)) (B2R f) in
  exists r, compute_similarity fu oob p q f = Ret r /\
    (lw <> 0%nat \/ dw <> 0 -> is_finite r = true /\ (0 <= B2R r <= 100)%R) /\
    (lw = 0%nat /\ dw = 0 -> r = B754_nan).
Proof. exact similarity_range. Qed.
Print Assumptions C11_similarity_range_partial.

(** * C12 *)
Theorem C12_self_100_disjoint_0 :
  forall fu oob p q f,
  api_profile p -> api_profile q -> fits_memory p -> fits_memory q ->
  is_finite f = true -> (0 <= B2R f <= 1)%R ->
  (union_size (p_likes p) (p_likes q) <> 0%nat \/
   dislikes_weight (union_size (p_dislikes p) (p_dislikes q)) (B2R f) <> 0) ->
  exists r, compute_similarity fu oob p q f = Ret r /\ is_finite r = true /\
    (p_likes p = p_likes q -> p_dislikes p = p_dislikes q -> B2R r = 100%R) /\
    ((forall x, x ∈ p_likes p -> x ∉ p_likes q) ->
     (forall x, x ∈ p_dislikes p -> x ∉ p_dislikes q) -> B2R r = 0%R).
Proof. exact similarity_self_disjoint. Qed.
Print Assumptions C12_self_100_disjoint_0.

Example C11_C12_case :
  let p := Profile 1 [3; 8] [4] in
  api_profile p /\ fits_memory p /\ is_finite half = true /\ (0 <= B2R half <= 1)%R /\
  union_size (p_likes p) (p_likes p) = 2%nat.
Proof.
  split; [exists 1, [OLike 8; ODislike 4; OLike 3]; split; [repeat constructor; done|done]|].
  destruct half_val as [Hf Hv]. split; [done|]. split; [exact Hf|]. split; [|done].
  unfold f32 in Hv. rewrite Hv. lra.
Qed.
