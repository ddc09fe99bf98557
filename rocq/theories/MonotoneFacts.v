(** How the similarity changes with one more common or differing item. *)
From Coq Require Import Reals Lra.
From Flocq Require Import Core.Core IEEE754.BinarySingleNaN.
From Verif Require Import Base Profile Spec ProfileFacts Similarity SimilarityFacts AccuracyFacts.

(** ** Counting *)
Open Scope nat_scope.

Definition ind (P : Prop) `{Decision P} : nat := if decide P then 1 else 0.

Lemma lts_add (A A' : list Z) x : (forall y, y ∈ A' <-> y ∈ A \/ y = x) ->
  list_to_set A' =@{gset Z} {[x]} ∪ list_to_set A.
Proof. intros H. set_solver. Qed.

Lemma lts_del (A A' : list Z) x : (forall y, y ∈ A' <-> y ∈ A /\ y <> x) ->
  list_to_set A' =@{gset Z} list_to_set A ∖ {[x]}.
Proof. intros H. set_solver. Qed.

Lemma size_with (X : gset Z) (x : Z) : size ({[x]} ∪ X) + ind (x ∈ X) = size X + 1.
Proof.
  unfold ind. case_decide.
  - replace ({[x]} ∪ X) with X by set_solver. lia.
  - rewrite size_union by set_solver. rewrite size_singleton. lia.
Qed.

Lemma size_without (X : gset Z) (x : Z) : size (X ∖ {[x]}) + ind (x ∈ X) = size X.
Proof.
  unfold ind. case_decide.
  - rewrite size_difference by set_solver. rewrite size_singleton.
    assert (size X <> 0); [|lia]. intros E. apply size_empty_iff in E. set_solver.
  - replace (X ∖ {[x]}) with X by set_solver. lia.
Qed.

Lemma ind_iff P Q `{Decision P, Decision Q} : (P <-> Q) -> ind P = ind Q.
Proof. intros HPQ. unfold ind. repeat case_decide; tauto. Qed.

Lemma ind_cases P `{Decision P} : (P /\ ind P = 1) \/ (~ P /\ ind P = 0).
Proof. unfold ind. destruct (decide P); [by left|by right]. Qed.

Section Counts.
  Context (A B A' B' : list Z) (x : Z).

  Lemma both_add : (forall y, y ∈ A' <-> y ∈ A \/ y = x) -> (forall y, y ∈ B' <-> y ∈ B \/ y = x) ->
    common A' B' + ind (x ∈ A /\ x ∈ B) = common A B + 1 /\
    union_size A' B' + ind (x ∈ A \/ x ∈ B) = union_size A B + 1.
  Proof.
    intros HA HB. unfold common, union_size. rewrite (lts_add A A' x HA), (lts_add B B' x HB). split.
    - rewrite (ind_iff _ (x ∈ (list_to_set A ∩ list_to_set B : gset Z)))
        by (by rewrite elem_of_intersection, !elem_of_list_to_set).
      rewrite <- (union_intersection_l_L {[x]}). apply size_with.
    - rewrite (ind_iff _ (x ∈ (list_to_set A ∪ list_to_set B : gset Z)))
        by (by rewrite elem_of_union, !elem_of_list_to_set).
      replace ({[x]} ∪ list_to_set A ∪ ({[x]} ∪ list_to_set B)) with ({[x]} ∪ (list_to_set A ∪ list_to_set B) : gset Z)
        by set_solver. apply size_with.
  Qed.

  Lemma both_del : (forall y, y ∈ A' <-> y ∈ A /\ y <> x) -> (forall y, y ∈ B' <-> y ∈ B /\ y <> x) ->
    common A' B' + ind (x ∈ A /\ x ∈ B) = common A B /\
    union_size A' B' + ind (x ∈ A \/ x ∈ B) = union_size A B.
  Proof.
    intros HA HB. unfold common, union_size. rewrite (lts_del A A' x HA), (lts_del B B' x HB). split.
    - rewrite (ind_iff _ (x ∈ (list_to_set A ∩ list_to_set B : gset Z)))
        by (by rewrite elem_of_intersection, !elem_of_list_to_set).
      replace (list_to_set A ∖ {[x]} ∩ (list_to_set B ∖ {[x]})) with ((list_to_set A ∩ list_to_set B) ∖ {[x]} : gset Z)
        by set_solver. apply size_without.
    - rewrite (ind_iff _ (x ∈ (list_to_set A ∪ list_to_set B : gset Z)))
        by (by rewrite elem_of_union, !elem_of_list_to_set).
      replace (list_to_set A ∖ {[x]} ∪ list_to_set B ∖ {[x]}) with ((list_to_set A ∪ list_to_set B) ∖ {[x]} : gset Z)
        by set_solver. apply size_without.
  Qed.

  Lemma one_add : (forall y, y ∈ A' <-> y ∈ A \/ y = x) -> x ∉ A -> x ∉ B ->
    common A' B = common A B /\ union_size A' B = union_size A B + 1.
  Proof.
    intros HA HxA HxB. unfold common, union_size. rewrite (lts_add A A' x HA). split.
    - f_equal. set_solver.
    - rewrite <- (size_with (list_to_set A ∪ list_to_set B) x). unfold ind. rewrite decide_False by set_solver.
      rewrite Nat.add_0_r. f_equal. set_solver.
  Qed.
End Counts.

Lemma same_items (A A' B B' : list Z) : (forall y, y ∈ A' <-> y ∈ A) -> (forall y, y ∈ B' <-> y ∈ B) ->
  common A' B' = common A B /\ union_size A' B' = union_size A B.
Proof. intros HA HB. unfold common, union_size. split; f_equal; set_solver. Qed.

(** ** Fractions *)
Close Scope nat_scope.
Open Scope R_scope.

(** [N] speaks for and [D - N] against. *)
Lemma frac_mono N D N' D' : 0 <= N -> N <= D -> 0 < D -> 0 < D' -> N <= N' -> D' - N' <= D - N ->
  N / D <= N' / D'.
Proof.
  intros H0 H1 HD HD' HN HM. apply (Rmult_le_reg_r (D * D')); [by apply Rmult_lt_0_compat|].
  replace (N / D * (D * D')) with (N * D') by (field; lra).
  replace (N' / D' * (D * D')) with (N' * D) by (field; lra).
  destruct (Rle_dec D' D); nra.
Qed.

Lemma jac_back (c n : Z) : (0 <= c <= n)%Z -> jac c n * IZR n = IZR c.
Proof.
  intros H. unfold jac. destruct (decide (n = 0%Z)) as [->|Hn].
  - assert (c = 0%Z) as -> by lia. lra.
  - field. apply not_0_IZR. done.
Qed.

(** The mean of the Jaccard indices as agreement over everything. *)
Lemma wmean_frac (cl nl cd nd : Z) (g : R) : (0 <= cl <= nl)%Z -> (0 <= cd <= nd)%Z ->
  wmean (jac cl nl) (IZR nl) (jac cd nd) (IZR nd * g) = 100 * ((IZR cl + IZR cd * g) / (IZR nl + IZR nd * g)).
Proof.
  intros Hl Hd. unfold wmean. rewrite jac_back by done. rewrite <- Rmult_assoc, jac_back by done. done.
Qed.

Lemma wmean_mono (cl nl cd nd cl' nl' cd' nd' : Z) (g : R) :
  (0 <= cl <= nl)%Z -> (0 <= cd <= nd)%Z -> (0 <= cl' <= nl')%Z -> (0 <= cd' <= nd')%Z -> 0 <= g ->
  0 < IZR nl + IZR nd * g -> 0 < IZR nl' + IZR nd' * g ->
  IZR cl + IZR cd * g <= IZR cl' + IZR cd' * g ->
  IZR (nl' - cl') + IZR (nd' - cd') * g <= IZR (nl - cl) + IZR (nd - cd) * g ->
  wmean (jac cl nl) (IZR nl) (jac cd nd) (IZR nd * g) <=
  wmean (jac cl' nl') (IZR nl') (jac cd' nd') (IZR nd' * g).
Proof.
  intros Hl Hd Hl' Hd' Hg P P' HN HM. rewrite !wmean_frac by done. apply Rmult_le_compat_l; [lra|].
  assert (B : IZR 0 <= IZR cl <= IZR nl) by (split; apply IZR_le; lia).
  assert (B2 : IZR 0 <= IZR cd <= IZR nd) by (split; apply IZR_le; lia).
  rewrite !minus_IZR in HM. apply frac_mono; try done; nra.
Qed.

(** The same with a weight for the dislikes that does not change. *)
Lemma wmean_mono_likes (cl nl cl' nl' : Z) (jd w : R) :
  (0 <= cl <= nl)%Z -> (0 <= cl' <= nl')%Z -> 0 <= jd <= 1 -> 0 <= w ->
  0 < IZR nl + w -> 0 < IZR nl' + w -> (cl <= cl')%Z -> (nl' - cl' <= nl - cl)%Z ->
  wmean (jac cl nl) (IZR nl) jd w <= wmean (jac cl' nl') (IZR nl') jd w.
Proof.
  intros Hl Hl' Hj Hw P P' HN HM. unfold wmean. rewrite !jac_back by done. apply Rmult_le_compat_l; [lra|].
  assert (B : IZR 0 <= IZR cl <= IZR nl) by (split; apply IZR_le; lia).
  apply IZR_le in HN, HM. rewrite !minus_IZR in HM. apply frac_mono; try done; nra.
Qed.

(** ** Scores *)

Lemma finite_weight fu oob p q f r :
  profile_inv p -> profile_inv q -> fits_memory p -> fits_memory q -> is_finite f = true -> 0 <= B2R f <= 1 ->
  compute_similarity fu oob p q f = Ret r -> is_finite r = true ->
  union_size (p_likes p) (p_likes q) <> 0%nat \/
  dislikes_weight (union_size (p_dislikes p) (p_dislikes q)) (B2R f) <> 0%Z.
Proof.
  intros Hp Hq [L1 D1] [L2 D2] Ff Bf E Fr.
  destruct (similarity_cases fu oob p q f Hp Hq L1 L2 D1 D2 Ff Bf) as (_ & _ & Hn & _).
  destruct (decide (union_size (p_likes p) (p_likes q) = 0%nat)) as [El|]; [|by left].
  destruct (decide (dislikes_weight (union_size (p_dislikes p) (p_dislikes q)) (B2R f) = 0%Z)) as [Ed|]; [|by right].
  rewrite (Hn El Ed) in E. injection E as <-. done.
Qed.

Lemma weights_pos nl nd f : 0 <= f <= 1 -> nl <> 0%nat \/ dislikes_weight nd f <> 0%Z ->
  0 < IZR (Z.of_nat nl) + IZR (Z.of_nat nd) * f.
Proof.
  intros Bf H. assert (Hx : 0 <= IZR (Z.of_nat nl)) by (apply IZR_le; lia).
  assert (HW : 0 <= IZR (Z.of_nat nd) * f) by (apply Rmult_le_pos; [apply IZR_le; lia|lra]).
  destruct H as [H|H].
  - assert (0 < IZR (Z.of_nat nl)) by (apply IZR_lt; lia). lra.
  - destruct HW as [HW|HW]; [lra|]. exfalso. apply H. unfold dislikes_weight.
    destruct (Rmult_integral _ _ (eq_sym HW)) as [E|E].
    + rewrite E, rnd_0, Rmult_0_l, rnd_0. apply (Ztrunc_IZR 0).
    + rewrite E, Rmult_0_r, rnd_0. apply (Ztrunc_IZR 0).
Qed.

Lemma small_weight n g : 0 <= g <= 1 -> (Z.of_nat n <= 2 ^ 24)%Z -> (dislikes_weight n g <= Z.of_nat n)%Z.
Proof.
  intros Hg Hn. unfold dislikes_weight. rewrite (rnd_int (Z.of_nat n)) by lia.
  assert (0 <= IZR (Z.of_nat n)) by (apply IZR_le; lia).
  assert (Hr : 0 <= rnd (IZR (Z.of_nat n) * g)) by (apply rnd_nonneg; nra).
  rewrite Ztrunc_floor by done. apply le_IZR. eapply Rle_trans; [apply Zfloor_lb|].
  rewrite <- (rnd_int (Z.of_nat n)) at 2 by lia. apply rnd_le. nra.
Qed.

Lemma full_score fu oob p q f r :
  profile_inv p -> profile_inv q -> fits_memory p -> fits_memory q -> is_finite f = true -> 0 <= B2R f <= 1 ->
  compute_similarity fu oob p q f = Ret r -> is_finite r = true ->
  common (p_likes p) (p_likes q) = union_size (p_likes p) (p_likes q) ->
  dislikes_weight (union_size (p_dislikes p) (p_dislikes q)) (B2R f) = 0%Z \/
  common (p_dislikes p) (p_dislikes q) = union_size (p_dislikes p) (p_dislikes q) ->
  B2R r = 100.
Proof.
  intros Hp Hq Mp Mq Ff Bf E Fr C1 C2.
  pose proof (finite_weight fu oob p q f r Hp Hq Mp Mq Ff Bf E Fr) as W.
  pose proof Hp as (P1 & P2 & _). pose proof Hq as (Q1 & Q2 & _).
  pose proof (union_size_bound _ _ P1 Q1 (proj1 Mp) (proj1 Mq)) as HL.
  pose proof (union_size_bound _ _ P2 Q2 (proj2 Mp) (proj2 Mq)) as HD.
  destruct (dislike_weight oob (Z.of_nat (union_size (p_dislikes p) (p_dislikes q))) f
              ltac:(lia) Ff Bf) as (w & Ew & Ew' & Bw & Zw).
  set (dw := dislikes_weight (union_size (p_dislikes p) (p_dislikes q)) (B2R f)) in *.
  assert (w = dw) as -> by done.
  destruct (set_sim_props _ _ HL) as (a & Va & Ba & A1 & A0).
  destruct (set_sim_props _ _ HD) as (b & Vb & Bb & B1 & B0).
  rewrite compute_similarity_score, Ew in E by done. injection E as <-.
  destruct (score_val fu _ (Z.of_nat (union_size (p_likes p) (p_likes q))) _ dw a b Va Vb Ba Bb
    ltac:(lia) ltac:(lia) ltac:(lia)) as (s & [Fs Vs] & Bs & S1 & S0).
  rewrite Vs. apply S1.
  - destruct (decide (union_size (p_likes p) (p_likes q) = 0%nat)); [left; lia|right; by apply A1].
  - destruct C2 as [C2|C2]; [by left|].
    destruct (decide (union_size (p_dislikes p) (p_dislikes q) = 0%nat)) as [Ez|Ez];
      [left; apply Zw; lia|right; by apply B1].
Qed.

Section Scores.
  Context (fu : fusion) (oob : f32 -> Z) (p q p' q' : profile) (f r r' : f32).
  Context (Hp : profile_inv p) (Hq : profile_inv q) (Hp' : profile_inv p') (Hq' : profile_inv q').
  Context (Mp : fits_memory p) (Mq : fits_memory q) (Mp' : fits_memory p') (Mq' : fits_memory q').
  Context (Ff : is_finite f = true) (Bf : 0 <= B2R f <= 1).
  Context (Er : compute_similarity fu oob p q f = Ret r) (Fr : is_finite r = true).
  Context (Er' : compute_similarity fu oob p' q' f = Ret r') (Fr' : is_finite r' = true).

  Let cl := common (p_likes p) (p_likes q).
  Let nl := union_size (p_likes p) (p_likes q).
  Let cd := common (p_dislikes p) (p_dislikes q).
  Let nd := union_size (p_dislikes p) (p_dislikes q).
  Let cl' := common (p_likes p') (p_likes q').
  Let nl' := union_size (p_likes p') (p_likes q').
  Let cd' := common (p_dislikes p') (p_dislikes q').
  Let nd' := union_size (p_dislikes p') (p_dislikes q').

  (** The dislikes count as they did. *)
  Lemma score_mono_likes :
    (cl <= cl')%nat -> (nl' - cl' <= nl - cl)%nat -> cd' = cd -> nd' = nd ->
    B2R r * (1 - bpow radix2 (-18)) <= B2R r'.
  Proof using All.
    intros H1 H2 H3 H4.
    pose proof (finite_weight fu oob p q f r Hp Hq Mp Mq Ff Bf Er Fr) as W.
    pose proof (finite_weight fu oob p' q' f r' Hp' Hq' Mp' Mq' Ff Bf Er' Fr') as W'.
    destruct (similarity_near fu oob p q f Hp Hq Mp Mq Ff Bf W) as (s & Es & _ & Bm & Em & _).
    destruct (similarity_near fu oob p' q' f Hp' Hq' Mp' Mq' Ff Bf W') as (s' & Es' & _ & Bm' & Em' & _).
    rewrite Er in Es. injection Es as <-. rewrite Er' in Es'. injection Es' as <-.
    fold cl nl cd nd in Em, Bm, W. fold cl' nl' cd' nd' in Em', Bm', W'.
    rewrite H3, H4 in Em', Bm'. rewrite H4 in W'.
    pose proof (common_le_union (p_likes p) (p_likes q)) as C1. fold cl nl in C1.
    pose proof (common_le_union (p_likes p') (p_likes q')) as C2. fold cl' nl' in C2.
    pose proof (common_le_union (p_dislikes p) (p_dislikes q)) as C3. fold cd nd in C3.
    destruct (similarity_cases fu oob p q f Hp Hq (proj1 Mp) (proj1 Mq) (proj2 Mp) (proj2 Mq) Ff Bf)
      as (Hw & _). fold nd in Hw.
    assert (Hw' : 0 <= IZR (dislikes_weight nd (B2R f))) by (apply IZR_le; lia).
    assert (M : wmean (jac (Z.of_nat cl) (Z.of_nat nl)) (IZR (Z.of_nat nl))
                      (jac (Z.of_nat cd) (Z.of_nat nd)) (IZR (dislikes_weight nd (B2R f))) <=
                wmean (jac (Z.of_nat cl') (Z.of_nat nl')) (IZR (Z.of_nat nl'))
                      (jac (Z.of_nat cd) (Z.of_nat nd)) (IZR (dislikes_weight nd (B2R f)))).
    { apply wmean_mono_likes; try done; try lia.
      - apply jac_range. lia.
      - rewrite <- plus_IZR. apply IZR_lt. lia.
      - rewrite <- plus_IZR. apply IZR_lt. lia. }
    revert M Em Em' Bm Bm'. generalize (wmean (jac (Z.of_nat cl) (Z.of_nat nl)) (IZR (Z.of_nat nl))
                      (jac (Z.of_nat cd) (Z.of_nat nd)) (IZR (dislikes_weight nd (B2R f)))).
    generalize (wmean (jac (Z.of_nat cl') (Z.of_nat nl')) (IZR (Z.of_nat nl'))
                      (jac (Z.of_nat cd) (Z.of_nat nd)) (IZR (dislikes_weight nd (B2R f)))).
    intros m' m M Em Em' Bm Bm'.
    change (bpow radix2 (-19)) with (/ IZR 524288) in *. change (bpow radix2 (-18)) with (/ IZR 262144).
    apply Rabs_le_inv in Em, Em'. lra.
  Qed.

  (** In general: as good as the weights are large. *)
  Lemma score_mono :
    IZR (Z.of_nat cl) + IZR (Z.of_nat cd) * B2R f <= IZR (Z.of_nat cl') + IZR (Z.of_nat cd') * B2R f ->
    IZR (Z.of_nat nl' - Z.of_nat cl') + IZR (Z.of_nat nd' - Z.of_nat cd') * B2R f <=
    IZR (Z.of_nat nl - Z.of_nat cl) + IZR (Z.of_nat nd - Z.of_nat cd) * B2R f ->
    B2R r - 100 / (IZR (Z.of_nat nl) + IZR (Z.of_nat nd) * B2R f)
          - 100 / (IZR (Z.of_nat nl') + IZR (Z.of_nat nd') * B2R f) - bpow radix2 (-10) <= B2R r'.
  Proof using All.
    intros H1 H2.
    pose proof (finite_weight fu oob p q f r Hp Hq Mp Mq Ff Bf Er Fr) as W.
    pose proof (finite_weight fu oob p' q' f r' Hp' Hq' Mp' Mq' Ff Bf Er' Fr') as W'.
    destruct (similarity_near fu oob p q f Hp Hq Mp Mq Ff Bf W) as (s & Es & _ & _ & _ & Em).
    destruct (similarity_near fu oob p' q' f Hp' Hq' Mp' Mq' Ff Bf W') as (s' & Es' & _ & _ & _ & Em').
    rewrite Er in Es. injection Es as <-. rewrite Er' in Es'. injection Es' as <-.
    fold cl nl cd nd in Em, W. fold cl' nl' cd' nd' in Em', W'.
    pose proof (common_le_union (p_likes p) (p_likes q)) as C1. fold cl nl in C1.
    pose proof (common_le_union (p_likes p') (p_likes q')) as C2. fold cl' nl' in C2.
    pose proof (common_le_union (p_dislikes p) (p_dislikes q)) as C3. fold cd nd in C3.
    pose proof (common_le_union (p_dislikes p') (p_dislikes q')) as C4. fold cd' nd' in C4.
    assert (P : 0 < IZR (Z.of_nat nl) + IZR (Z.of_nat nd) * B2R f) by (by apply weights_pos).
    assert (P' : 0 < IZR (Z.of_nat nl') + IZR (Z.of_nat nd') * B2R f) by (by apply weights_pos).
    assert (M := wmean_mono (Z.of_nat cl) (Z.of_nat nl) (Z.of_nat cd) (Z.of_nat nd)
      (Z.of_nat cl') (Z.of_nat nl') (Z.of_nat cd') (Z.of_nat nd') (B2R f)
      ltac:(lia) ltac:(lia) ltac:(lia) ltac:(lia) (proj1 Bf) P P' H1 H2).
    change (bpow radix2 (-11)) with (/ IZR 2048) in *. change (bpow radix2 (-10)) with (/ IZR 1024).
    apply Rabs_le_inv in Em, Em'. lra.
  Qed.
  (** With few items the rounding cannot turn the comparison round. *)
  Lemma score_same : cl' = cl -> nl' = nl -> cd' = cd -> nd' = nd -> r' = r.
  Proof using Hp Hq Hp' Hq' Er Er'.
    intros H1 H2 H3 H4. rewrite compute_similarity_score in Er, Er' by done.
    revert Er Er'. unfold set_sim. fold cl nl cd nd cl' nl' cd' nd'. rewrite H1, H2, H3, H4.
    intros E1 E2. rewrite E1 in E2. by injection E2.
  Qed.

  (** Somebody likes it already or nobody does. *)
  Lemma score_up_small :
    cl' = (cl + 1)%nat -> nl' = nl \/ nl' = (nl + 1)%nat -> cd' = cd -> nd' = nd ->
    (nl <= 32)%nat -> (nd <= 32)%nat -> B2R r <= B2R r'.
  Proof using All.
    intros H1 H2 H3 H4 B1 B2.
    pose proof (finite_weight fu oob p q f r Hp Hq Mp Mq Ff Bf Er Fr) as W.
    pose proof (finite_weight fu oob p' q' f r' Hp' Hq' Mp' Mq' Ff Bf Er' Fr') as W'.
    destruct (similarity_near fu oob p q f Hp Hq Mp Mq Ff Bf W) as (s & Es & _ & Bm & Em & _).
    destruct (similarity_near fu oob p' q' f Hp' Hq' Mp' Mq' Ff Bf W') as (s' & Es' & _ & Bm' & Em' & _).
    rewrite Er in Es. injection Es as <-. rewrite Er' in Es'. injection Es' as <-.
    fold cl nl cd nd in Em, Bm, W. fold cl' nl' cd' nd' in Em', Bm', W'.
    rewrite H3, H4 in Em', Bm'. rewrite H4 in W'.
    pose proof (common_le_union (p_likes p) (p_likes q)) as C1. fold cl nl in C1.
    pose proof (common_le_union (p_likes p') (p_likes q')) as C2. fold cl' nl' in C2.
    pose proof (common_le_union (p_dislikes p) (p_dislikes q)) as C3. fold cd nd in C3.
    destruct (similarity_cases fu oob p q f Hp Hq (proj1 Mp) (proj1 Mq) (proj2 Mp) (proj2 Mq) Ff Bf)
      as (Hw & Hw0 & _ & Hrange). fold nd in Hw, Hw0.
    destruct Hrange as (s & Es & _ & Br & _); [fold nl nd; lia|]. rewrite Er in Es. injection Es as <-.
    assert (Hwd : (dislikes_weight nd (B2R f) <= 32)%Z).
    { pose proof (small_weight nd (B2R f) Bf ltac:(lia)). lia. }
    destruct (decide (cl = nl /\ (dislikes_weight nd (B2R f) = 0%Z \/ cd = nd))) as [[Q1 Q2]|Q].
    - assert (B2R r' = 100); [|lra].
      apply (full_score fu oob p' q' f r'); try done; fold cl' nl' cd' nd'; [lia|].
      rewrite H4, H3. done.
    - set (w := dislikes_weight nd (B2R f)) in *.
      assert (Hw' : 0 <= IZR w <= 32) by (split; apply IZR_le; lia).
      set (N := IZR (Z.of_nat cl) + jac (Z.of_nat cd) (Z.of_nat nd) * IZR w).
      set (D := IZR (Z.of_nat nl) + IZR w).
      pose proof (jac_range (Z.of_nat cd) (Z.of_nat nd) ltac:(lia)) as Rd.
      assert (Bcl : 0 <= IZR (Z.of_nat cl) <= IZR (Z.of_nat nl)) by (split; apply IZR_le; lia).
      assert (Bnl : IZR (Z.of_nat nl) <= 32) by (apply IZR_le; lia).
      assert (PD : 1 <= D).
      { unfold D. rewrite <- plus_IZR. apply IZR_le. unfold w in *. lia. }
      assert (G : / 32 <= D - N).
      { unfold D, N. destruct (decide (cl = nl)) as [E|E].
        - assert (1 <= IZR w) by (apply IZR_le; unfold w in *; lia).
          assert (jac (Z.of_nat cd) (Z.of_nat nd) <= 1 - / 32); [|rewrite E; nra].
          unfold jac. assert (0 < IZR (Z.of_nat nd)) by (apply IZR_lt; lia).
          assert (IZR (Z.of_nat nd) <= 32) by (apply IZR_le; lia).
          apply (Rmult_le_reg_r (IZR (Z.of_nat nd))); [done|].
          unfold Rdiv. rewrite Rmult_assoc, Rinv_l, Rmult_1_r by lra.
          assert (IZR (Z.of_nat cd) <= IZR (Z.of_nat nd) - 1) by (rewrite <- minus_IZR; apply IZR_le; lia).
          nra.
        - assert (IZR (Z.of_nat cl) <= IZR (Z.of_nat nl) - 1) by (rewrite <- minus_IZR; apply IZR_le; lia). nra. }
      assert (BN : 0 <= N) by (unfold N; nra). assert (BD : D <= 64) by (unfold D; lra).
      assert (Mm : wmean (jac (Z.of_nat cl) (Z.of_nat nl)) (IZR (Z.of_nat nl))
        (jac (Z.of_nat cd) (Z.of_nat nd)) (IZR w) = 100 * (N / D)).
      { unfold wmean. rewrite jac_back by lia. done. }
      assert (Mm' : 100 * ((N + 1) / (D + 1)) <= wmean (jac (Z.of_nat cl') (Z.of_nat nl')) (IZR (Z.of_nat nl'))
        (jac (Z.of_nat cd) (Z.of_nat nd)) (IZR w)).
      { unfold wmean. rewrite jac_back by lia. apply Rmult_le_compat_l; [lra|]. rewrite H1, Nat2Z.inj_add, plus_IZR.
        change (IZR (Z.of_nat 1)) with 1.
        replace (IZR (Z.of_nat cl) + 1 + jac (Z.of_nat cd) (Z.of_nat nd) * IZR w) with (N + 1) by (unfold N; ring).
        unfold Rdiv. apply Rmult_le_compat_l; [lra|].
        assert (1 <= IZR (Z.of_nat nl')) by (apply IZR_le; lia).
        apply Rinv_le_contravar; [lra|]. unfold D.
        assert (IZR (Z.of_nat nl') <= IZR (Z.of_nat nl) + 1); [|lra].
        rewrite <- plus_IZR. apply IZR_le. lia. }
      assert (K : N / D * (1 + / IZR 524288) <= (N + 1) / (D + 1) * (1 - / IZR 524288)).
      { apply (Rmult_le_reg_r (D * (D + 1))); [nra|].
        replace (N / D * (1 + / IZR 524288) * (D * (D + 1))) with (N * (D + 1) * (1 + / IZR 524288)) by (field; lra).
        replace ((N + 1) / (D + 1) * (1 - / IZR 524288) * (D * (D + 1))) with ((N + 1) * D * (1 - / IZR 524288))
          by (field; lra).
        assert (N * D <= 64 * 64) by nra. nra. }
      rewrite Mm in Em, Bm.
      change (bpow radix2 (-19)) with (/ IZR 524288) in *. apply Rabs_le_inv in Em, Em'. lra.
  Qed.

  (** One more like that is not shared. *)
  Lemma score_down :
    cl' = cl -> nl' = (nl + 1)%nat -> cd' = cd -> nd' = nd ->
    (Z.of_nat nl <= 65536)%Z -> (Z.of_nat nd <= 65536)%Z -> B2R r' <= B2R r.
  Proof using All.
    intros H1 H2 H3 H4 B1 B2.
    pose proof (finite_weight fu oob p q f r Hp Hq Mp Mq Ff Bf Er Fr) as W.
    pose proof (finite_weight fu oob p' q' f r' Hp' Hq' Mp' Mq' Ff Bf Er' Fr') as W'.
    destruct (similarity_near fu oob p q f Hp Hq Mp Mq Ff Bf W) as (s & Es & _ & Bm & Em & _).
    destruct (similarity_near fu oob p' q' f Hp' Hq' Mp' Mq' Ff Bf W') as (s' & Es' & _ & Bm' & Em' & _).
    rewrite Er in Es. injection Es as <-. rewrite Er' in Es'. injection Es' as <-.
    fold cl nl cd nd in Em, Bm, W. fold cl' nl' cd' nd' in Em', Bm', W'.
    rewrite H1, H3, H4 in Em', Bm'. rewrite H4 in W'.
    pose proof (common_le_union (p_likes p) (p_likes q)) as C1. fold cl nl in C1.
    pose proof (common_le_union (p_dislikes p) (p_dislikes q)) as C3. fold cd nd in C3.
    destruct (similarity_cases fu oob p q f Hp Hq (proj1 Mp) (proj1 Mq) (proj2 Mp) (proj2 Mq) Ff Bf)
      as (Hw & _). fold nd in Hw.
    assert (Hwd : (dislikes_weight nd (B2R f) <= 65536)%Z).
    { pose proof (small_weight nd (B2R f) Bf ltac:(lia)). lia. }
    set (w := dislikes_weight nd (B2R f)) in *.
    assert (Hw' : 0 <= IZR w <= 65536) by (split; apply IZR_le; lia).
    set (N := IZR (Z.of_nat cl) + jac (Z.of_nat cd) (Z.of_nat nd) * IZR w).
    set (D := IZR (Z.of_nat nl) + IZR w).
    pose proof (jac_range (Z.of_nat cd) (Z.of_nat nd) ltac:(lia)) as Rd.
    assert (Bcl : 0 <= IZR (Z.of_nat cl) <= IZR (Z.of_nat nl)) by (split; apply IZR_le; lia).
    assert (Bnl : IZR (Z.of_nat nl) <= 65536) by (apply IZR_le; lia).
    assert (PD : 1 <= D).
    { unfold D. rewrite <- plus_IZR. apply IZR_le. unfold w in *. lia. }
    assert (BN : 0 <= N) by (unfold N; nra). assert (BD : D <= 131072) by (unfold D; lra).
    assert (Mm : wmean (jac (Z.of_nat cl) (Z.of_nat nl)) (IZR (Z.of_nat nl))
      (jac (Z.of_nat cd) (Z.of_nat nd)) (IZR w) = 100 * (N / D)).
    { unfold wmean. rewrite jac_back by lia. done. }
    assert (Mm' : wmean (jac (Z.of_nat cl) (Z.of_nat nl')) (IZR (Z.of_nat nl'))
      (jac (Z.of_nat cd) (Z.of_nat nd)) (IZR w) = 100 * (N / (D + 1))).
    { unfold wmean. rewrite jac_back by lia. fold N. rewrite H2, Nat2Z.inj_add, plus_IZR.
      change (IZR (Z.of_nat 1)) with 1. unfold D. do 2 f_equal. ring. }
    assert (K : N / (D + 1) * (1 + / IZR 524288) <= N / D * (1 - / IZR 524288)).
    { apply (Rmult_le_reg_r (D * (D + 1))); [nra|].
      replace (N / (D + 1) * (1 + / IZR 524288) * (D * (D + 1))) with (N * (D * (1 + / IZR 524288))) by (field; lra).
      replace (N / D * (1 - / IZR 524288) * (D * (D + 1))) with (N * ((D + 1) * (1 - / IZR 524288)))
        by (field; lra).
      apply Rmult_le_compat_l; [done|]. lra. }
    rewrite Mm in Em, Bm. rewrite Mm' in Em', Bm'.
    change (bpow radix2 (-19)) with (/ IZR 524288) in *. apply Rabs_le_inv in Em, Em'. lra.
  Qed.
End Scores.
