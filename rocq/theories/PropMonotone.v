(** Properties C95 and C96: one more item that two users agree or disagree on
    (internal/domain/profile.go).  [fu] ranges over the ways a Go compiler may fuse the
    weighted sum, [oob] over the results of int(x) for x outside the range of int. *)
From Coq Require Import Reals Lra.
From Flocq Require Import Core.Core IEEE754.BinarySingleNaN.
From Verif Require Import Base Profile Spec ProfileFacts Similarity SimilarityFacts AccuracyFacts MonotoneFacts.
Open Scope R_scope.

(** The sizes of what the two like and of what the two dislike. *)
Definition likes_of (p q : profile) : nat := union_size (p_likes p) (p_likes q).
Definition dislikes_of (p q : profile) : nat := union_size (p_dislikes p) (p_dislikes q).

(** The item is new to the profile. *)
Definition new_to (x : Z) (p : profile) : Prop := x ∉ p_likes p /\ x ∉ p_dislikes p.

(** A float whose mantissa and exponent are known. *)
Lemma sf_val (o : outcome f32) m e : match o with Ret r => B2SF r = SpecFloat.S754_finite false m e | _ => False end ->
  exists r, o = Ret r /\ is_finite r = true /\ B2R r = IZR (Zpos m) * bpow radix2 e.
Proof.
  destruct o as [r|?| |]; try done. intros E. exists r. split; [done|]. split; [by destruct r|].
  rewrite <- SF2R_B2SF, E. done.
Qed.

Lemma sf_zero (o : outcome f32) : match o with Ret r => B2SF r = SpecFloat.S754_zero false | _ => False end ->
  exists r, o = Ret r /\ is_finite r = true /\ B2R r = 0.
Proof.
  destruct o as [r|?| |]; try done. intros E. exists r. split; [done|]. split; [by destruct r|].
  rewrite <- SF2R_B2SF, E. done.
Qed.

Ltac by_ind x p q :=
  destruct (ind_cases (x ∈ p_likes p /\ x ∈ p_likes q)) as [[? Ei]|[? Ei]],
    (ind_cases (x ∈ p_likes p \/ x ∈ p_likes q)) as [[? Ej]|[? Ej]];
  rewrite ?Ei, ?Ej in *; first [lia | tauto].

Ltac all_ind x p q C1 U1 C2 U2 :=
  destruct (ind_cases (x ∈ p_likes p /\ x ∈ p_likes q)) as [[? Ei]|[? Ei]],
    (ind_cases (x ∈ p_likes p \/ x ∈ p_likes q)) as [[? Ej]|[? Ej]],
    (ind_cases (x ∈ p_dislikes p /\ x ∈ p_dislikes q)) as [[? Ek]|[? Ek]],
    (ind_cases (x ∈ p_dislikes p \/ x ∈ p_dislikes q)) as [[? El]|[? El]]; try tauto;
  rewrite ?Ei, ?Ek in C1; rewrite ?Ei, ?Ek in C2; rewrite ?Ej, ?El in U1; rewrite ?Ej, ?El in U2.

Lemma plus_back a b c : a + b = c -> a = c - b.
Proof. lra. Qed.

Ltac by_counts :=
  repeat match goal with E : INR _ + _ = _ |- _ => apply plus_back in E; rewrite E; clear E end; split; lra.

(** * C95
    Full claim: if two users both like an item, or both dislike one, their similarity
    does not fall.  False for dislikes: with the factor 1/2 and one dislike the weight of
    the dislikes is truncated to 0, with two it is 1, and 100 becomes 75. *)
Theorem C95_dislike_refuted :
  exists p q p' q' x f, api_profile p /\ api_profile q /\ new_to x p /\ new_to x q /\
    dislike p x = Ret p' /\ dislike q x = Ret q' /\ is_finite f = true /\ B2R f = / 2 /\
    forall fu oob, exists r r', compute_similarity fu oob p q f = Ret r /\
      compute_similarity fu oob p' q' f = Ret r' /\ is_finite r = true /\ is_finite r' = true /\
      B2R r = 100 /\ B2R r' = 75.
Proof.
  destruct half_val as [Hf Hv].
  exists (Profile 1 [5%Z] [7%Z]), (Profile 2 [5%Z] []), (Profile 1 [5%Z] [7%Z; 9%Z]), (Profile 2 [5%Z] [9%Z]), 9%Z, half.
  split; [exists 1%Z, [OLike 5; ODislike 7]; split; [repeat constructor; done|done]|].
  split; [exists 2%Z, [OLike 5]; split; [repeat constructor; done|done]|].
  split; [by split; cbn; set_solver|]. split; [by split; cbn; set_solver|].
  split; [by vm_compute|]. split; [by vm_compute|]. split; [done|]. split; [done|]. intros fu oob.
  destruct (sf_val (compute_similarity fu oob (Profile 1 [5%Z] [7%Z]) (Profile 2 [5%Z] []) half) 13107200 (-17))
    as (r & E & F & V); [destruct fu; vm_compute; reflexivity|].
  destruct (sf_val (compute_similarity fu oob (Profile 1 [5%Z] [7%Z; 9%Z]) (Profile 2 [5%Z] [9%Z]) half) 9830400 (-17))
    as (r' & E' & F' & V'); [destruct fu; vm_compute; reflexivity|].
  exists r, r'. do 4 (split; [done|]). rewrite V, V'. change (bpow radix2 (-17)) with (/ IZR 131072). split; lra.
Qed.
Print Assumptions C95_dislike_refuted.

(** For likes it is false by a rounding error: 511 items liked by both, 136 of 137 items
    disliked by both, factor 1/128. *)
Definition many (a n : nat) : list Z := map Z.of_nat (seq a n).

Theorem C95_like_refuted :
  exists p q p' q' x f, api_profile p /\ api_profile q /\ new_to x p /\ new_to x q /\
    like p x = Ret p' /\ like q x = Ret q' /\ is_finite f = true /\ 0 <= B2R f <= 1 /\
    forall fu oob, exists r r', compute_similarity fu oob p q f = Ret r /\
      compute_similarity fu oob p' q' f = Ret r' /\ is_finite r = true /\ is_finite r' = true /\
      B2R r' < B2R r.
Proof.
  set (f := f32_div (f32_of_int 1) (f32_of_int 128)).
  assert (Hf : is_finite f = true /\ B2R f = IZR 8388608 * bpow radix2 (-30)).
  { destruct (sf_val (Ret f) 8388608 (-30)) as (f' & E & F & V); [by vm_compute|]. injection E as <-. done. }
  exists (Profile 1 (many 0 511) (many 1000 136)), (Profile 2 (many 0 511) (many 1000 137)),
    (Profile 1 (many 0 512) (many 1000 136)), (Profile 2 (many 0 512) (many 1000 137)), 511%Z, f.
  split; [exists 1%Z, (map OLike (many 0 511) ++ map ODislike (many 1000 136)); split; [|by vm_compute]|].
  { apply Forall_forall. intros o Ho. unfold is_u64. apply elem_of_app in Ho as [Ho|Ho];
      apply elem_of_list_fmap in Ho as (y & -> & Hy); unfold many in Hy;
      apply elem_of_list_fmap in Hy as (n & -> & Hn); apply elem_of_seq in Hn; cbn [op_item]; lia. }
  split; [exists 2%Z, (map OLike (many 0 511) ++ map ODislike (many 1000 137)); split; [|by vm_compute]|].
  { apply Forall_forall. intros o Ho. unfold is_u64. apply elem_of_app in Ho as [Ho|Ho];
      apply elem_of_list_fmap in Ho as (y & -> & Hy); unfold many in Hy;
      apply elem_of_list_fmap in Hy as (n & -> & Hn); apply elem_of_seq in Hn; cbn [op_item]; lia. }
  assert (Hnew : forall a n, (511 < a)%nat \/ (a + n <= 511)%nat -> 511%Z ∉ many a n).
  { intros a n H Hy. apply elem_of_list_fmap in Hy as (m & E & Hm). apply elem_of_seq in Hm. lia. }
  split; [by split; apply Hnew; cbn; lia|]. split; [by split; apply Hnew; cbn; lia|].
  split; [by vm_compute|]. split; [by vm_compute|]. split; [apply Hf|]. split.
  { rewrite (proj2 Hf). change (bpow radix2 (-30)) with (/ IZR 1073741824). lra. }
  intros fu oob.
  destruct (sf_val (compute_similarity fu oob (Profile 1 (many 0 511) (many 1000 136))
    (Profile 2 (many 0 511) (many 1000 137)) f) 13107013 (-17))
    as (r & E & F & V); [destruct fu; vm_compute; reflexivity|].
  destruct (sf_val (compute_similarity fu oob (Profile 1 (many 0 512) (many 1000 136))
    (Profile 2 (many 0 512) (many 1000 137)) f) 13107012 (-17))
    as (r' & E' & F' & V'); [destruct fu; vm_compute; reflexivity|].
  exists r, r'. do 4 (split; [done|]). rewrite V, V'. change (bpow radix2 (-17)) with (/ IZR 131072). lra.
Qed.
Print Assumptions C95_like_refuted.

(** An item that neither dislikes: liking it lowers the similarity at most by a factor
    1 - 2^-18, and not at all while the two have at most 32 likes and 32 dislikes. *)
Theorem C95_like_partial :
  forall fu oob p q p' q' x f r,
  api_profile p -> api_profile q -> is_u64 x -> x ∉ p_dislikes p -> x ∉ p_dislikes q ->
  like p x = Ret p' -> like q x = Ret q' ->
  fits_memory p -> fits_memory q -> fits_memory p' -> fits_memory q' ->
  is_finite f = true -> 0 <= B2R f <= 1 ->
  compute_similarity fu oob p q f = Ret r -> is_finite r = true ->
  exists r', compute_similarity fu oob p' q' f = Ret r' /\ is_finite r' = true /\
    B2R r * (1 - / 2 ^ 18) <= B2R r' /\
    ((likes_of p q <= 32)%nat -> (dislikes_of p q <= 32)%nat -> B2R r <= B2R r').
Proof.
  intros fu oob p q p' q' x f r Ap%api_profile_inv Aq%api_profile_inv Hx Dp Dq Lp Lq Mp Mq Mp' Mq' Ff Bf Er Fr.
  destruct (like_spec p x Ap Hx) as (l1 & d1 & E1 & I1 & Hl1 & Hd1). rewrite Lp in E1. injection E1 as ->.
  destruct (like_spec q x Aq Hx) as (l2 & d2 & E2 & I2 & Hl2 & Hd2). rewrite Lq in E2. injection E2 as ->.
  destruct (both_add (p_likes p) (p_likes q) l1 l2 x Hl1 Hl2) as [C1 U1].
  destruct (same_items (p_dislikes p) d1 (p_dislikes q) d2) as [C2 U2].
  { intros y. rewrite Hd1. split; [by intros []|]. intros H. split; [done|]. intros ->. done. }
  { intros y. rewrite Hd2. split; [by intros []|]. intros H. split; [done|]. intros ->. done. }
  pose proof (common_le_union (p_likes p) (p_likes q)) as Cu.
  assert (Hn : (0 < union_size l1 l2)%nat).
  { destruct (ind_cases (x ∈ p_likes p \/ x ∈ p_likes q)) as [[H Ei]|[H Ei]]; rewrite Ei in U1; [|lia].
    assert (union_size (p_likes p) (p_likes q) <> 0%nat); [|lia]. rewrite union_size_0. intros [N1 N2].
    rewrite N1, N2 in H. set_solver. }
  destruct (similarity_near fu oob _ _ f I1 I2 Mp' Mq' Ff Bf) as (r' & Er' & Fr' & _); [left; cbn [p_likes]; lia|].
  exists r'. split; [done|]. split; [done|]. split.
  - replace (/ 2 ^ 18) with (bpow radix2 (-18)) by (change (bpow radix2 (-18)) with (/ IZR 262144); f_equal; ring).
    eapply (score_mono_likes fu oob p q _ _ f r r' Ap Aq I1 I2); try done; cbn [p_likes p_dislikes]; try done;
      by_ind x p q.
  - unfold likes_of, dislikes_of. intros B1 B2. destruct (decide (x ∈ p_likes p /\ x ∈ p_likes q)) as [H|H].
    + right. f_equal. symmetry. apply (score_same fu oob p q _ _ f r r' Ap Aq I1 I2 Er Er'); cbn [p_likes p_dislikes]; try done;
        by_ind x p q.
    + apply (score_up_small fu oob p q _ _ f r r' Ap Aq I1 I2); try done; cbn [p_likes p_dislikes]; try done;
        by_ind x p q.
Qed.
Print Assumptions C95_like_partial.

(** The sum of the weights of the likes and of the dislikes, not truncated. *)
Definition weight_of (p q : profile) (f : f32) : R := INR (likes_of p q) + INR (dislikes_of p q) * B2R f.

(** In general the fall is bounded by what the truncation can do: for every item that
    both like afterwards, and every item that both dislike afterwards and not both liked
    before. *)
Theorem C95_partial :
  forall fu oob p q p' q' x f r r',
  api_profile p -> api_profile q -> is_u64 x ->
  (like p x = Ret p' /\ like q x = Ret q') \/
  (dislike p x = Ret p' /\ dislike q x = Ret q' /\ ~ (x ∈ p_likes p /\ x ∈ p_likes q)) ->
  fits_memory p -> fits_memory q -> fits_memory p' -> fits_memory q' ->
  is_finite f = true -> 0 <= B2R f <= 1 ->
  compute_similarity fu oob p q f = Ret r -> is_finite r = true ->
  compute_similarity fu oob p' q' f = Ret r' -> is_finite r' = true ->
  B2R r - 100 / weight_of p q f - 100 / weight_of p' q' f - / 2 ^ 10 <= B2R r'.
Proof.
  intros fu oob p q p' q' x f r r' Ap%api_profile_inv Aq%api_profile_inv Hx Ha Mp Mq Mp' Mq' Ff Bf Er Fr Er' Fr'.
  replace (/ 2 ^ 10) with (bpow radix2 (-10)) by (change (bpow radix2 (-10)) with (/ IZR 1024); f_equal; ring).
  unfold weight_of, likes_of, dislikes_of. rewrite !INR_IZR_INZ.
  assert (Hg : exists l1 d1 l2 d2, p' = Profile (p_user p) l1 d1 /\ q' = Profile (p_user q) l2 d2 /\
    profile_inv p' /\ profile_inv q' /\
    let c (A B : list Z) := IZR (Z.of_nat (common A B)) in
    let g (A B : list Z) := IZR (Z.of_nat (union_size A B) - Z.of_nat (common A B)) in
    c (p_likes p) (p_likes q) + c (p_dislikes p) (p_dislikes q) * B2R f <= c l1 l2 + c d1 d2 * B2R f /\
    g l1 l2 + g d1 d2 * B2R f <= g (p_likes p) (p_likes q) + g (p_dislikes p) (p_dislikes q) * B2R f).
  { destruct Ha as [[Lp Lq]|(Lp & Lq & Hnot)].
    - destruct (like_spec p x Ap Hx) as (l1 & d1 & E1 & I1 & Hl1 & Hd1). rewrite Lp in E1. injection E1 as ->.
      destruct (like_spec q x Aq Hx) as (l2 & d2 & E2 & I2 & Hl2 & Hd2). rewrite Lq in E2. injection E2 as ->.
      exists l1, d1, l2, d2. do 4 (split; [done|]). cbv zeta.
      destruct (both_add _ _ _ _ x Hl1 Hl2) as [C1 U1]. destruct (both_del _ _ _ _ x Hd1 Hd2) as [C2 U2].
      pose proof Ap as (_ & _ & Sp & _). pose proof Aq as (_ & _ & Sq & _).
      pose proof (Sp x). pose proof (Sq x).
      all_ind x p q C1 U1 C2 U2;
      rewrite !minus_IZR, <- !INR_IZR_INZ;
      apply (f_equal INR) in C1, U1, C2, U2; rewrite !plus_INR in C1; rewrite !plus_INR in U1;
      rewrite !plus_INR in C2; rewrite !plus_INR in U2; cbn [INR] in C1, U1, C2, U2;
      by_counts.
    - destruct (dislike_spec p x Ap Hx) as (l1 & d1 & E1 & I1 & Hd1 & Hl1). rewrite Lp in E1. injection E1 as ->.
      destruct (dislike_spec q x Aq Hx) as (l2 & d2 & E2 & I2 & Hd2 & Hl2). rewrite Lq in E2. injection E2 as ->.
      exists l1, d1, l2, d2. do 4 (split; [done|]). cbv zeta.
      destruct (both_del _ _ _ _ x Hl1 Hl2) as [C1 U1]. destruct (both_add _ _ _ _ x Hd1 Hd2) as [C2 U2].
      pose proof Ap as (_ & _ & Sp & _). pose proof Aq as (_ & _ & Sq & _).
      pose proof (Sp x). pose proof (Sq x).
      all_ind x p q C1 U1 C2 U2;
      rewrite !minus_IZR, <- !INR_IZR_INZ;
      apply (f_equal INR) in C1, U1, C2, U2; rewrite !plus_INR in C1; rewrite !plus_INR in U1;
      rewrite !plus_INR in C2; rewrite !plus_INR in U2; cbn [INR] in C1, U1, C2, U2;
      by_counts. }
  destruct Hg as (l1 & d1 & l2 & d2 & -> & -> & I1 & I2 & H1 & H2).
  apply (score_mono fu oob p q _ _ f r r' Ap Aq I1 I2 Mp Mq Mp' Mq' Ff Bf Er Fr Er' Fr' H1 H2).
Qed.
Print Assumptions C95_partial.

(** * C96
    Full claim: an opinion on an item that the other user does not share does not raise
    the similarity.  False for dislikes: the second dislike gives the first one weight,
    and 0 becomes 25. *)
Theorem C96_dislike_refuted :
  exists p q p' x f, api_profile p /\ api_profile q /\ new_to x p /\ new_to x q /\
    dislike p x = Ret p' /\ is_finite f = true /\ B2R f = / 2 /\
    forall fu oob, exists r r', compute_similarity fu oob p q f = Ret r /\
      compute_similarity fu oob p' q f = Ret r' /\ is_finite r = true /\ is_finite r' = true /\
      B2R r = 0 /\ B2R r' = 25.
Proof.
  destruct half_val as [Hf Hv].
  exists (Profile 1 [5%Z] [7%Z]), (Profile 2 [] [7%Z]), (Profile 1 [5%Z] [7%Z; 9%Z]), 9%Z, half.
  split; [exists 1%Z, [OLike 5; ODislike 7]; split; [repeat constructor; done|done]|].
  split; [exists 2%Z, [ODislike 7]; split; [repeat constructor; done|done]|].
  split; [by split; cbn; set_solver|]. split; [by split; cbn; set_solver|].
  split; [by vm_compute|]. split; [done|]. split; [done|]. intros fu oob.
  destruct (sf_zero (compute_similarity fu oob (Profile 1 [5%Z] [7%Z]) (Profile 2 [] [7%Z]) half))
    as (r & E & F & V); [destruct fu; vm_compute; reflexivity|].
  destruct (sf_val (compute_similarity fu oob (Profile 1 [5%Z] [7%Z; 9%Z]) (Profile 2 [] [7%Z]) half) 13107200 (-19))
    as (r' & E' & F' & V'); [destruct fu; vm_compute; reflexivity|].
  exists r, r'. do 4 (split; [done|]). split; [done|]. rewrite V'.
  change (bpow radix2 (-19)) with (/ IZR 524288). lra.
Qed.
Print Assumptions C96_dislike_refuted.

(** True of likes, exactly while the two have at most 65536 likes and dislikes, and up to
    a factor 1 - 2^-18 always. *)
Theorem C96_like_partial :
  forall fu oob p q p' x f r,
  api_profile p -> api_profile q -> is_u64 x -> new_to x p -> x ∉ p_likes q ->
  like p x = Ret p' -> fits_memory p -> fits_memory q -> fits_memory p' ->
  is_finite f = true -> 0 <= B2R f <= 1 ->
  compute_similarity fu oob p q f = Ret r -> is_finite r = true ->
  exists r', compute_similarity fu oob p' q f = Ret r' /\ is_finite r' = true /\
    B2R r' * (1 - / 2 ^ 18) <= B2R r /\
    ((Z.of_nat (likes_of p q) <= 65536)%Z -> (Z.of_nat (dislikes_of p q) <= 65536)%Z -> B2R r' <= B2R r).
Proof.
  intros fu oob p q p' x f r Ap%api_profile_inv Aq%api_profile_inv Hx [Np1 Np2] Nq Lp Mp Mq Mp' Ff Bf Er Fr.
  destruct (like_spec p x Ap Hx) as (l1 & d1 & E1 & I1 & Hl1 & Hd1). rewrite Lp in E1. injection E1 as ->.
  destruct (one_add (p_likes p) (p_likes q) l1 x Hl1 Np1 Nq) as [C1 U1].
  destruct (same_items (p_dislikes p) d1 (p_dislikes q) (p_dislikes q)) as [C2 U2]; [|done|].
  { intros y. rewrite Hd1. split; [by intros []|]. intros H. split; [done|]. intros ->. done. }
  pose proof (common_le_union (p_likes p) (p_likes q)) as Cu.
  destruct (similarity_near fu oob _ _ f I1 Aq Mp' Mq Ff Bf) as (r' & Er' & Fr' & _); [left; cbn [p_likes]; lia|].
  exists r'. split; [done|]. split; [done|]. split.
  - replace (/ 2 ^ 18) with (bpow radix2 (-18)) by (change (bpow radix2 (-18)) with (/ IZR 262144); f_equal; ring).
    eapply (score_mono_likes fu oob _ _ p q f r' r I1 Aq Ap Aq); try done; cbn [p_likes p_dislikes]; try done; lia.
  - unfold likes_of, dislikes_of. intros B1 B2.
    apply (score_down fu oob p q _ _ f r r' Ap Aq I1 Aq); try done; cbn [p_likes p_dislikes]; done.
Qed.
Print Assumptions C96_like_partial.

(** In general the rise is bounded by what the truncation can do. *)
Theorem C96_partial :
  forall fu oob p q p' x f r r',
  api_profile p -> api_profile q -> is_u64 x -> new_to x p ->
  (like p x = Ret p' /\ x ∉ p_likes q) \/ (dislike p x = Ret p' /\ x ∉ p_dislikes q) ->
  fits_memory p -> fits_memory q -> fits_memory p' ->
  is_finite f = true -> 0 <= B2R f <= 1 ->
  compute_similarity fu oob p q f = Ret r -> is_finite r = true ->
  compute_similarity fu oob p' q f = Ret r' -> is_finite r' = true ->
  B2R r' <= B2R r + 100 / weight_of p q f + 100 / weight_of p' q f + / 2 ^ 10.
Proof.
  intros fu oob p q p' x f r r' Ap%api_profile_inv Aq%api_profile_inv Hx [Np1 Np2] Ha Mp Mq Mp' Ff Bf Er Fr Er' Fr'.
  replace (/ 2 ^ 10) with (bpow radix2 (-10)) by (change (bpow radix2 (-10)) with (/ IZR 1024); f_equal; ring).
  unfold weight_of, likes_of, dislikes_of. rewrite !INR_IZR_INZ.
  assert (Hg : exists l1 d1, p' = Profile (p_user p) l1 d1 /\ profile_inv p' /\
    let c (A B : list Z) := IZR (Z.of_nat (common A B)) in
    let g (A B : list Z) := IZR (Z.of_nat (union_size A B) - Z.of_nat (common A B)) in
    c l1 (p_likes q) + c d1 (p_dislikes q) * B2R f <=
      c (p_likes p) (p_likes q) + c (p_dislikes p) (p_dislikes q) * B2R f /\
    g (p_likes p) (p_likes q) + g (p_dislikes p) (p_dislikes q) * B2R f <=
      g l1 (p_likes q) + g d1 (p_dislikes q) * B2R f).
  { destruct Ha as [[Lp Nq]|[Lp Nq]].
    - destruct (like_spec p x Ap Hx) as (l1 & d1 & E1 & I1 & Hl1 & Hd1). rewrite Lp in E1. injection E1 as ->.
      exists l1, d1. do 2 (split; [done|]). cbv zeta.
      destruct (one_add (p_likes p) (p_likes q) l1 x Hl1 Np1 Nq) as [C1 U1].
      destruct (same_items (p_dislikes p) d1 (p_dislikes q) (p_dislikes q)) as [C2 U2]; [|done|].
      { intros y. rewrite Hd1. split; [by intros []|]. intros H. split; [done|]. intros ->. done. }
      rewrite C1, U1, C2, U2, !minus_IZR, Nat2Z.inj_add, plus_IZR. change (IZR (Z.of_nat 1)) with 1. split; lra.
    - destruct (dislike_spec p x Ap Hx) as (l1 & d1 & E1 & I1 & Hd1 & Hl1). rewrite Lp in E1. injection E1 as ->.
      exists l1, d1. do 2 (split; [done|]). cbv zeta.
      destruct (one_add (p_dislikes p) (p_dislikes q) d1 x Hd1 Np2 Nq) as [C1 U1].
      destruct (same_items (p_likes p) l1 (p_likes q) (p_likes q)) as [C2 U2]; [|done|].
      { intros y. rewrite Hl1. split; [by intros []|]. intros H. split; [done|]. intros ->. done. }
      rewrite C1, U1, C2, U2, !minus_IZR, Nat2Z.inj_add, plus_IZR. change (IZR (Z.of_nat 1)) with 1. split; lra. }
  destruct Hg as (l1 & d1 & -> & I1 & H1 & H2).
  pose proof (score_mono fu oob _ _ p q f r' r I1 Aq Ap Aq Mp' Mq Mp Mq Ff Bf Er' Fr' Er Fr H1 H2) as S. lra.
Qed.
Print Assumptions C96_partial.

(** Likes {3,8} and {8}: 50.  Both like 4: 66.67; only the first does: 33.33. *)
Example C95_C96_case :
  let p := Profile 1 [3%Z; 8%Z] [] in let q := Profile 2 [8%Z] [] in
  api_profile p /\ api_profile q /\ new_to 4 p /\ new_to 4 q /\
  like p 4 = Ret (Profile 1 [3%Z; 4%Z; 8%Z] []) /\ like q 4 = Ret (Profile 2 [4%Z; 8%Z] []) /\
  forall fu oob, exists r r1 r2, compute_similarity fu oob p q half = Ret r /\
    compute_similarity fu oob (Profile 1 [3%Z; 4%Z; 8%Z] []) (Profile 2 [4%Z; 8%Z] []) half = Ret r1 /\
    compute_similarity fu oob (Profile 1 [3%Z; 4%Z; 8%Z] []) q half = Ret r2 /\
    B2R r = 50 /\ 66 < B2R r1 < 67 /\ 33 < B2R r2 < 34.
Proof.
  intros p q. split; [exists 1%Z, [OLike 8; OLike 3]; split; [repeat constructor; done|done]|].
  split; [exists 2%Z, [OLike 8]; split; [repeat constructor; done|done]|].
  split; [by split; cbn; set_solver|]. split; [by split; cbn; set_solver|].
  split; [by vm_compute|]. split; [by vm_compute|]. intros fu oob.
  destruct (sf_val (compute_similarity fu oob p q half) 13107200 (-18))
    as (r & E & F & V); [destruct fu; vm_compute; reflexivity|].
  destruct (sf_val (compute_similarity fu oob (Profile 1 [3%Z; 4%Z; 8%Z] []) (Profile 2 [4%Z; 8%Z] []) half) 8738134 (-17))
    as (r1 & E1 & F1 & V1); [destruct fu; vm_compute; reflexivity|].
  destruct (sf_val (compute_similarity fu oob (Profile 1 [3%Z; 4%Z; 8%Z] []) q half) 8738134 (-18))
    as (r2 & E2 & F2 & V2); [destruct fu; vm_compute; reflexivity|].
  exists r, r1, r2. do 3 (split; [done|]). rewrite V, V1, V2.
  change (bpow radix2 (-17)) with (/ IZR 131072). change (bpow radix2 (-18)) with (/ IZR 262144). lra.
Qed.
