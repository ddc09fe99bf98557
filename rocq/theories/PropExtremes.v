(** Property C131: what a similarity of 100 and a similarity of 0 mean. *)
From Coq Require Import Reals Lra.
From Flocq Require Import Core.Core IEEE754.BinarySingleNaN.
From Verif Require Import Base Spec ArraysFacts Profile ProfileFacts Similarity SimilarityFacts AccuracyFacts PropAccuracy.
Open Scope R_scope.

Lemma jaccard_bounds A B : 0 <= jaccard A B <= 1.
Proof.
  unfold jaccard. pose proof (common_le_union A B) as H. apply le_INR in H.
  pose proof (pos_INR (common A B)). destruct (decide (union_size A B = 0%nat)) as [E|E].
  - rewrite E. cbn [INR]. unfold Rdiv. rewrite Rinv_0. lra.
  - assert (0 < INR (union_size A B)) by (apply lt_0_INR; lia). split.
    + apply Rmult_le_pos; [done|]. left. by apply Rinv_0_lt_compat.
    + apply (Rmult_le_reg_r (INR (union_size A B))); [done|]. unfold Rdiv. rewrite Rmult_assoc, Rinv_l by lra. lra.
Qed.

Lemma jaccard_zero A B : jaccard A B = 0 -> common A B = 0%nat.
Proof.
  unfold jaccard. intros H. destruct (decide (common A B = 0%nat)) as [E|E]; [done|].
  pose proof (common_le_union A B). apply Rmult_integral in H as [H|H].
  - apply (INR_eq _ 0) in H. done.
  - exfalso. revert H. apply Rinv_neq_0_compat. apply not_0_INR. lia.
Qed.

(** Below 1 a Jaccard index is below it by a whole item. *)
Lemma jaccard_below A B : union_size A B <> 0%nat -> common A B <> union_size A B ->
  jaccard A B * INR (union_size A B) <= INR (union_size A B) - 1.
Proof.
  intros H0 H. unfold jaccard. pose proof (common_le_union A B).
  assert (INR (union_size A B) <> 0) by (by apply not_0_INR). unfold Rdiv. rewrite Rmult_assoc, Rinv_l by done.
  assert (Hs : (S (common A B) <= union_size A B)%nat) by lia. apply le_INR in Hs. rewrite S_INR in Hs. lra.
Qed.

Lemma common_zero A B : common A B = 0%nat -> forall x, x ∈ A -> x ∉ B.
Proof.
  unfold common. rewrite size_empty_iff. intros H x HA HB.
  assert (x ∈ (list_to_set A ∩ list_to_set B : gset Z)) as Hx by set_solver.
  set_solver.
Qed.

Lemma common_all A B : common A B = union_size A B -> forall x, x ∈ A <-> x ∈ B.
Proof.
  unfold common, union_size. intros H x.
  assert (E : (list_to_set A ∩ list_to_set B : gset Z) = list_to_set A ∪ list_to_set B).
  { apply set_eq. intros y. split; [set_solver|]. intros Hy.
    destruct (decide (y ∈ (list_to_set A ∩ list_to_set B : gset Z))) as [Hi|Hi]; [done|exfalso].
    assert (Hs : (list_to_set A ∩ list_to_set B : gset Z) ⊂ list_to_set A ∪ list_to_set B).
    { split; [set_solver|]. intros Hc. by apply Hi, Hc. }
    apply subset_size in Hs. lia. }
  assert (Hx : x ∈ (list_to_set A ∩ list_to_set B : gset Z) <-> x ∈ (list_to_set A ∪ list_to_set B : gset Z)) by (by rewrite E).
  set_solver.
Qed.

(** * C131
    Full claim: users score 100 only if they agree on everything, and 0 only if they
    agree on nothing.  False, because the weight of the dislikes is truncated: with
    factor 1/2 and one dislike it is 0. *)
Theorem C131_extremes_refuted :
  exists p q p' q' f, Forall api_profile [p; q; p'; q'] /\ is_finite f = true /\ B2R f = / 2 /\
    p_dislikes p <> p_dislikes q /\ p_dislikes p' = p_dislikes q' /\ p_dislikes p' <> [] /\
    forall fu oob,
      (exists r, compute_similarity fu oob p q f = Ret r /\ B2R r = 100) /\
      (exists r, compute_similarity fu oob p' q' f = Ret r /\ B2R r = 0).
Proof.
  destruct half_val as [Hf Hv].
  exists (Profile 1 [5%Z] [7%Z]), (Profile 2 [5%Z] []), (Profile 1 [5%Z] [7%Z]), (Profile 2 [6%Z] [7%Z]), half.
  split.
  { repeat apply Forall_cons_2; [..|done].
    - exists 1%Z, [OLike 5; ODislike 7]. split; [repeat constructor; done|done].
    - exists 2%Z, [OLike 5]. split; [repeat constructor; done|done].
    - exists 1%Z, [OLike 5; ODislike 7]. split; [repeat constructor; done|done].
    - exists 2%Z, [OLike 6; ODislike 7]. split; [repeat constructor; done|done]. }
  split; [exact Hf|]. split; [exact Hv|]. split; [done|]. split; [done|]. split; [done|].
  intros fu oob. split.
  - assert (E : match compute_similarity fu oob (Profile 1 [5%Z] [7%Z]) (Profile 2 [5%Z] []) half with
      | Ret r => B2SF r = SpecFloat.S754_finite false 13107200 (-17) | _ => False end)
      by (destruct fu; vm_compute; reflexivity).
    revert E. generalize (compute_similarity fu oob (Profile 1 [5%Z] [7%Z]) (Profile 2 [5%Z] []) half).
    intros [r|e| |] E; try done. exists r. split; [done|].
    rewrite <- SF2R_B2SF, E. unfold SF2R, F2R. cbn [Fnum Fexp cond_Zopp].
    change (bpow radix2 (-17)) with (/ IZR 131072). lra.
  - assert (E : match compute_similarity fu oob (Profile 1 [5%Z] [7%Z]) (Profile 2 [6%Z] [7%Z]) half with
      | Ret r => B2SF r = SpecFloat.S754_zero false | _ => False end)
      by (destruct fu; vm_compute; reflexivity).
    revert E. generalize (compute_similarity fu oob (Profile 1 [5%Z] [7%Z]) (Profile 2 [6%Z] [7%Z]) half).
    intros [r|e| |] E; try done. exists r. split; [done|].
    rewrite <- SF2R_B2SF, E. done.
Qed.
Print Assumptions C131_extremes_refuted.

(** What 0 means: no common like, and no common dislike unless the dislikes have no
    weight. *)
Theorem C131_zero_partial :
  forall fu oob p q f,
  api_profile p -> api_profile q -> fits_memory p -> fits_memory q ->
  is_finite f = true -> 0 <= B2R f <= 1 ->
  let nl := union_size (p_likes p) (p_likes q) in
  let nd := union_size (p_dislikes p) (p_dislikes q) in
  let w := dislikes_weight nd (B2R f) in
  (nl <> 0%nat \/ w <> 0%Z) ->
  exists r, compute_similarity fu oob p q f = Ret r /\ is_finite r = true /\
    (B2R r = 0 <->
     (forall x, x ∈ p_likes p -> x ∉ p_likes q) /\
     (w = 0%Z \/ forall x, x ∈ p_dislikes p -> x ∉ p_dislikes q)).
Proof.
  intros fu oob p q f Ap Aq Mp Mq Ff Bf nl nd w Hpos.
  destruct (C87_weighted_mean_partial fu oob p q f Ap Aq Mp Mq Ff Bf Hpos) as (r & E & Fr & He & _).
  fold nl nd w in He. exists r. split; [done|]. split; [done|].
  assert (Hw : (0 <= w)%Z).
  { pose proof (api_profile_inv _ Ap) as Ip. pose proof (api_profile_inv _ Aq) as Iq.
    destruct Mp, Mq. by destruct (similarity_cases fu oob p q f Ip Iq) as [Hw _]. }
  apply IZR_le in Hw. unfold mean in He. pose proof (pos_INR nl) as Hl.
  pose proof (jaccard_bounds (p_likes p) (p_likes q)) as JL.
  pose proof (jaccard_bounds (p_dislikes p) (p_dislikes q)) as JD.
  assert (Hs : 0 < INR nl + IZR w).
  { destruct Hpos as [H|H]; [assert (0 < INR nl) by (apply lt_0_INR; lia); lra|].
    assert (0 < IZR w); [|lra]. apply IZR_lt. apply le_IZR in Hw. lia. }
  set (jl := jaccard (p_likes p) (p_likes q)) in *. set (jd := jaccard (p_dislikes p) (p_dislikes q)) in *.
  assert (0 <= jl * INR nl) by (apply Rmult_le_pos; lra). assert (0 <= jd * IZR w) by (apply Rmult_le_pos; lra).
  set (m := (jl * INR nl + jd * IZR w) / (INR nl + IZR w)) in He.
  assert (Hm : m * (INR nl + IZR w) = jl * INR nl + jd * IZR w).
  { unfold m, Rdiv. rewrite Rmult_assoc, Rinv_l by lra. lra. }
  assert (0 <= m).
  { unfold m. apply Rmult_le_pos; [lra|]. left. by apply Rinv_0_lt_compat. }
  split.
  - intros Hr. rewrite Hr in He. apply Rabs_le_inv in He. assert (m = 0) as E0 by lra.
    rewrite E0, Rmult_0_l in Hm. assert (Hl0 : jl * INR nl = 0) by lra. assert (Hd0 : jd * IZR w = 0) by lra.
    split.
    + apply common_zero. apply Rmult_integral in Hl0 as [K1|K1]; [by apply jaccard_zero|].
      apply (INR_eq _ 0) in K1. pose proof (common_le_union (p_likes p) (p_likes q)). unfold nl in K1. lia.
    + apply Rmult_integral in Hd0 as [K1|K1]; [right|left].
      * apply common_zero. by apply jaccard_zero.
      * by apply eq_IZR in K1.
  - intros [K1 K2].
    assert (C0 : forall A B, (forall x, x ∈ A -> x ∉ B) -> jaccard A B = 0).
    { intros A B Hd. unfold jaccard, common. replace (size (_ ∩ _)) with 0%nat; [cbn [INR]; unfold Rdiv; lra|].
      symmetry. apply size_empty_iff. set_solver. }
    assert (Z1 : jl = 0) by (by apply C0).
    assert (Z2 : jd * IZR w = 0) by (destruct K2 as [->|K2]; [lra|unfold jd; rewrite (C0 _ _ K2); lra]).
    rewrite Z1, Z2 in Hm. assert (M0 : m = 0).
    { apply (Rmult_eq_reg_r (INR nl + IZR w)); lra. }
    rewrite M0 in He. apply Rabs_le_inv in He. lra.
Qed.
Print Assumptions C131_zero_partial.

(** What 100 means, while the profiles are not too large: the same likes if all the
    weight is below 2^19, and the same dislikes if their number is below 2^19 times
    their share of the weight. *)
Theorem C131_hundred_partial :
  forall fu oob p q f r,
  api_profile p -> api_profile q -> fits_memory p -> fits_memory q ->
  is_finite f = true -> 0 <= B2R f <= 1 ->
  let nl := union_size (p_likes p) (p_likes q) in
  let nd := union_size (p_dislikes p) (p_dislikes q) in
  let w := dislikes_weight nd (B2R f) in
  (nl <> 0%nat \/ w <> 0%Z) ->
  compute_similarity fu oob p q f = Ret r -> B2R r = 100 ->
  ((Z.of_nat nl + w < 2 ^ 19)%Z -> forall x, x ∈ p_likes p <-> x ∈ p_likes q) /\
  ((Z.of_nat nd * (Z.of_nat nl + w) < 2 ^ 19 * w)%Z -> forall x, x ∈ p_dislikes p <-> x ∈ p_dislikes q).
Proof.
  intros fu oob p q f r Ap Aq Mp Mq Ff Bf nl nd w Hpos Er Hr.
  destruct (C87_weighted_mean_partial fu oob p q f Ap Aq Mp Mq Ff Bf Hpos) as (r' & E & Fr & He & _).
  fold nl nd w in He. rewrite Er in E. injection E as <-. rewrite Hr in He.
  assert (Hw : (0 <= w)%Z).
  { pose proof (api_profile_inv _ Ap) as Ip. pose proof (api_profile_inv _ Aq) as Iq.
    destruct Mp, Mq. by destruct (similarity_cases fu oob p q f Ip Iq) as [Hw _]. }
  apply IZR_le in Hw. unfold mean in He. pose proof (pos_INR nl) as Hl.
  pose proof (jaccard_bounds (p_likes p) (p_likes q)) as JL.
  pose proof (jaccard_bounds (p_dislikes p) (p_dislikes q)) as JD.
  pose proof (jaccard_below (p_likes p) (p_likes q)) as BL.
  pose proof (jaccard_below (p_dislikes p) (p_dislikes q)) as BD. fold nl in BL. fold nd in BD.
  assert (Hs : 0 < INR nl + IZR w).
  { destruct Hpos as [H|H]; [assert (0 < INR nl) by (apply lt_0_INR; lia); lra|].
    assert (0 < IZR w); [|lra]. apply IZR_lt. apply le_IZR in Hw. lia. }
  set (jl := jaccard (p_likes p) (p_likes q)) in *. set (jd := jaccard (p_dislikes p) (p_dislikes q)) in *.
  assert (jl * INR nl <= INR nl) by nra. assert (jd * IZR w <= IZR w) by nra.
  set (m := (jl * INR nl + jd * IZR w) / (INR nl + IZR w)) in He.
  assert (Hm : m * (INR nl + IZR w) = jl * INR nl + jd * IZR w).
  { unfold m, Rdiv. rewrite Rmult_assoc, Rinv_l by lra. lra. }
  assert (Hm1 : m <= 1) by (apply (Rmult_le_reg_r (INR nl + IZR w)); lra).
  apply Rabs_le_inv in He. assert (He' : 1 - m <= / 2 ^ 19) by lra.
  replace (2 ^ 19) with 524288 in He' by lra.
  assert (Hgap : (1 - m) * (INR nl + IZR w) <= / 524288 * (INR nl + IZR w)) by (apply Rmult_le_compat_r; lra).
  split; intros Hb; apply common_all.
  - destruct (decide (common (p_likes p) (p_likes q) = nl)) as [Ec|Ec]; [done|exfalso].
    assert (N0 : nl <> 0%nat). { intros N0. pose proof (common_le_union (p_likes p) (p_likes q)). lia. }
    specialize (BL N0 Ec). apply IZR_lt in Hb. rewrite plus_IZR, <- INR_IZR_INZ in Hb.
    replace (IZR (2 ^ 19)) with 524288 in Hb by (cbn; lra). lra.
  - destruct (decide (common (p_dislikes p) (p_dislikes q) = nd)) as [Ec|Ec]; [done|exfalso].
    assert (N0 : nd <> 0%nat). { intros N0. pose proof (common_le_union (p_dislikes p) (p_dislikes q)). lia. }
    specialize (BD N0 Ec). apply IZR_lt in Hb. rewrite !mult_IZR, plus_IZR, <- !INR_IZR_INZ in Hb.
    replace (IZR (2 ^ 19)) with 524288 in Hb by (cbn; lra).
    assert (0 < INR nd) by (apply lt_0_INR; lia).
    assert (G1 : jd * IZR w * INR nd <= IZR w * INR nd - IZR w) by nra.
    assert (G2 : (1 - m) * (INR nl + IZR w) * INR nd <= / 524288 * (INR nl + IZR w) * INR nd) by (apply Rmult_le_compat_r; lra).
    assert (G3 : IZR w <= (1 - m) * (INR nl + IZR w) * INR nd).
    { replace ((1 - m) * (INR nl + IZR w) * INR nd) with ((INR nl + IZR w) * INR nd - (m * (INR nl + IZR w)) * INR nd) by ring.
      rewrite Hm. nra. }
    lra.
Qed.
Print Assumptions C131_hundred_partial.

Lemma all_liked (l : list Z) x : forall v,
  fold_left (fun v rq => if bool_decide (rq.2 = x) then judge v rq.1 else v) (map as_request (map OLike l)) v =
  if bool_decide (x ∈ l) then Liked else v.
Proof.
  induction l as [|y l IH]; intros v; cbn [map fold_left].
  - by rewrite bool_decide_false by apply not_elem_of_nil.
  - rewrite IH. cbn [as_request fst snd judge].
    destruct (decide (x ∈ l)) as [H|H].
    + rewrite !bool_decide_true; [done|by constructor|done].
    + rewrite (bool_decide_false (x ∈ l)) by done. destruct (decide (y = x)) as [->|Hn].
      * rewrite !bool_decide_true; [done|constructor|done].
      * rewrite !bool_decide_false; [done| |done]. intros [->|]%elem_of_cons; done.
Qed.

(** A user who likes the items 0 .. n-1 and dislikes none. *)
Lemma liker n : (0 <= n < 2 ^ 60)%Z -> exists p, api_profile p /\ fits_memory p /\ p_dislikes p = [] /\
  forall x, x ∈ p_likes p <-> x ∈ seqZ 0 n.
Proof.
  intros Hn.
  destruct (run_profile_spec_gen (map OLike (seqZ 0 n)) (new_profile 1) (profile_inv_new 1)) as (p & E & Hp & _ & Hv).
  { apply Forall_map, Forall_forall. intros x Hx%elem_of_seqZ. cbn [op_item]. unfold is_u64. lia. }
  exists p. assert (Hv' : forall x, state_verdict p x = if bool_decide (x ∈ seqZ 0 n) then Liked else Unknown).
  { intros x. rewrite Hv, all_liked. done. }
  assert (HL : forall x, x ∈ p_likes p <-> x ∈ seqZ 0 n).
  { intros x. specialize (Hv' x). unfold state_verdict in Hv'.
    destruct (decide (x ∈ p_likes p)) as [H1|H1]; destruct (decide (x ∈ seqZ 0 n)) as [H2|H2]; try done.
    - by rewrite bool_decide_true, bool_decide_false in Hv'.
    - rewrite bool_decide_false, (bool_decide_true (_ ∈ seqZ _ _)) in Hv' by done. by destruct (bool_decide _). }
  assert (HD : p_dislikes p = []).
  { destruct (p_dislikes p) as [|d D] eqn:ED; [done|exfalso]. specialize (Hv' d). unfold state_verdict in Hv'.
    pose proof Hp as (_ & _ & Hdis & _). assert (Hd : d ∈ p_dislikes p) by (rewrite ED; constructor).
    assert (d ∉ p_likes p) by (intros H; by apply (Hdis d H)).
    rewrite bool_decide_false, bool_decide_true in Hv' by done. by destruct (bool_decide _). }
  split; [|split; [|split; [exact HD|exact HL]]].
  - exists 1%Z, (map OLike (seqZ 0 n)). split; [|done].
    apply Forall_map, Forall_forall. intros x Hx%elem_of_seqZ. cbn [op_item]. unfold is_u64. lia.
  - unfold fits_memory. rewrite HD. split; [|cbn; lia].
    assert (length (p_likes p) = length (seqZ 0 n)) as ->; [|rewrite seqZ_length; lia].
    apply Permutation_length, NoDup_Permutation; [apply strictly_ascending_NoDup, Hp|apply NoDup_seqZ|exact HL].
Qed.

Lemma rnd_odd : rnd (IZR 33554433) = IZR 33554432.
Proof.
  destruct (weight_val 33554433) as (s & [_ V] & Es & _); [lia|]. rewrite <- Es, <- V.
  assert (E : B2SF (f32_of_int 33554433) = SpecFloat.S754_finite false 8388608 2) by (vm_compute; reflexivity).
  rewrite <- SF2R_B2SF, E. unfold SF2R, F2R. cbn [Fnum Fexp cond_Zopp]. change (bpow radix2 2) with (IZR 4). lra.
Qed.

Lemma two_likers n : (0 <= n < 2 ^ 59)%Z -> exists p q,
  api_profile p /\ api_profile q /\ fits_memory p /\ fits_memory q /\
  p_dislikes p = [] /\ p_dislikes q = [] /\ p_likes p <> p_likes q /\
  Z.of_nat (common (p_likes p) (p_likes q)) = n /\ Z.of_nat (union_size (p_likes p) (p_likes q)) = (n + 1)%Z.
Proof.
  intros Hn. destruct (liker n) as (p & Ap & Mp & Dp & Lp); [lia|].
  destruct (liker (n + 1)) as (q & Aq & Mq & Dq & Lq); [lia|].
  exists p, q. do 6 (split; [done|]). split; [|split].
  - intros E. specialize (Lp n). rewrite E, Lq, !elem_of_seqZ in Lp. lia.
  - unfold common. replace (list_to_set (p_likes p) ∩ list_to_set (p_likes q) : gset Z)
      with (list_to_set (seqZ 0 n) : gset Z).
    + rewrite size_list_to_set by apply NoDup_seqZ. rewrite seqZ_length. lia.
    + apply set_eq. intros x. rewrite elem_of_intersection, !elem_of_list_to_set, Lp, Lq, !elem_of_seqZ. lia.
  - unfold union_size. replace (list_to_set (p_likes p) ∪ list_to_set (p_likes q) : gset Z)
      with (list_to_set (seqZ 0 (n + 1)) : gset Z).
    + rewrite size_list_to_set by apply NoDup_seqZ. rewrite seqZ_length. lia.
    + apply set_eq. intros x. rewrite elem_of_union, !elem_of_list_to_set, Lp, Lq, !elem_of_seqZ. lia.
Qed.

(** And rounding makes 100 of large profiles that differ, whatever the factor: here
    2^25 likes and one more. *)
Theorem C131_large_refuted :
  exists p q, api_profile p /\ api_profile q /\ fits_memory p /\ fits_memory q /\
    p_dislikes p = [] /\ p_dislikes q = [] /\ p_likes p <> p_likes q /\
    forall fu oob f, is_finite f = true -> 0 <= B2R f <= 1 ->
    exists r, compute_similarity fu oob p q f = Ret r /\ B2R r = 100.
Proof.
  destruct (two_likers 33554432) as (p & q & Ap & Aq & Mp & Mq & Dp & Dq & Hne & HC & HU); [lia|].
  change (33554432 + 1)%Z with 33554433%Z in HU.
  exists p, q. do 7 (split; [assumption|]).
  intros fu oob f Ff Bf.
  rewrite compute_similarity_score by (by apply api_profile_inv). rewrite HU, Dp, Dq.
  assert (U0 : union_size [] [] = 0%nat) by done. rewrite U0.
  destruct (dislike_weight oob (Z.of_nat 0) f ltac:(lia) Ff Bf) as (w & Ew & _ & _ & Zw).
  specialize (Zw eq_refl). rewrite Ew, Zw.
  assert (Va : is_val (set_sim (p_likes p) (p_likes q)) 1).
  { unfold set_sim. rewrite HU, HC. change (33554433 =? 0)%Z with false. cbv iota.
    destruct (set_sim_val 33554432 33554433) as (s & V & Es & _); [lia|lia|].
    rewrite rnd_odd in Es. replace s with 1 in V; [exact V|]. rewrite Es.
    assert (R1 : rnd (IZR 33554432) = IZR 33554432).
    { destruct (weight_val 33554432) as (s2 & [_ V2] & E2 & _); [lia|]. rewrite <- E2, <- V2.
      assert (E : B2SF (f32_of_int 33554432) = SpecFloat.S754_finite false 8388608 2) by (vm_compute; reflexivity).
      rewrite <- SF2R_B2SF, E. unfold SF2R, F2R. cbn [Fnum Fexp cond_Zopp]. change (bpow radix2 2) with (IZR 4). lra. }
    rewrite R1. unfold Rdiv. rewrite Rinv_r by lra. symmetry. apply rnd_1. }
  destruct (set_sim_props [] []) as (b & Vb & Bb & _); [rewrite U0; lia|].
  destruct (score_val fu _ 33554433 _ 0 1 b Va Vb ltac:(lra) Bb ltac:(lia) ltac:(lia) ltac:(lia)) as (s & [_ Vs] & _ & S1 & _).
  eexists. split; [reflexivity|]. rewrite Vs. apply S1; [by right|by left].
Qed.
Print Assumptions C131_large_refuted.

(** Likes {3,8} and {8,9}, dislikes {4} and {4,5}, factor 1 (the case of C87): the
    weights are 3 and 2, so both bounds are met; the score is neither 0 nor 100. *)
Example C131_case :
  let p := Profile 1 [3%Z; 8%Z] [4%Z] in let q := Profile 2 [8%Z; 9%Z] [4%Z; 5%Z] in
  api_profile p /\ api_profile q /\ fits_memory p /\ fits_memory q /\
  union_size (p_likes p) (p_likes q) = 3%nat /\ union_size (p_dislikes p) (p_dislikes q) = 2%nat /\
  dislikes_weight 2 1 = 2%Z /\ (3 + 2 < 2 ^ 19)%Z /\ (2 * (3 + 2) < 2 ^ 19 * 2)%Z.
Proof.
  intros p q. split; [|split].
  - exists 1%Z, [OLike 8; ODislike 4; OLike 3]. split; [repeat constructor; done|done].
  - exists 2%Z, [OLike 8; ODislike 4; OLike 9; ODislike 5]. split; [repeat constructor; done|done].
  - do 4 (split; [done|]). split; [|lia].
    unfold dislikes_weight. change (Z.of_nat 2) with 2%Z. rewrite (rnd_int 2) by lia.
    rewrite Rmult_1_r, (rnd_int 2) by lia. apply Ztrunc_IZR.
Qed.
