(** Error bounds for the similarity of profiles. *)
From Coq Require Import Reals Lra Psatz.
From Flocq Require Import Core.Core IEEE754.BinarySingleNaN Relative.
From Verif Require Import Base Profile Spec ProfileFacts Similarity SimilarityFacts.
#[local] Open Scope R_scope.

#[local] Instance fexp32_valid : Valid_exp fexp32 := fexp_correct 24 128 _.

(** ** Closeness up to a factor *)

(** [x] and [y] differ by at most [k] roundings. *)
Definition ulps : R := 1 + bpow radix2 (-23).
Definition near (k : nat) (x y : R) : Prop := 0 <= y /\ y <= x * ulps ^ k /\ x <= y * ulps ^ k.

Lemma ulps_gt : 1 < ulps.
Proof. unfold ulps. pose proof (bpow_gt_0 radix2 (-23)). lra. Qed.
Lemma pow_ulps_ge k : 1 <= ulps ^ k.
Proof. apply pow_R1_Rle. pose proof ulps_gt. lra. Qed.

Lemma near_refl x : 0 <= x -> near 0 x x.
Proof. intros H. split; [done|]. cbn. lra. Qed.
Lemma near_nonneg k x y : near k x y -> 0 <= x.
Proof.
  intros (H0 & H1 & _). pose proof (pow_ulps_ge k).
  destruct (Rle_or_lt 0 x) as [H'|H']; [done|]. exfalso.
  assert (x * ulps ^ k < 0) by nra. lra.
Qed.
Lemma near_mono k m x y : (k <= m)%nat -> near k x y -> near m x y.
Proof.
  intros Hm H. pose proof (near_nonneg _ _ _ H) as Hn. destruct H as (H0 & H1 & H2). split; [done|].
  assert (ulps ^ k <= ulps ^ m) by (apply Rle_pow; [pose proof ulps_gt; lra|done]).
  split; (eapply Rle_trans; [eassumption|]); apply Rmult_le_compat_l; lra.
Qed.
Lemma near_trans k m x y z : near k x y -> near m y z -> near (k + m) x z.
Proof.
  intros Hx Hy. pose proof (near_nonneg _ _ _ Hx) as Hn. destruct Hx as (H0 & H1 & H2), Hy as (H3 & H4 & H5).
  pose proof (pow_ulps_ge k). pose proof (pow_ulps_ge m). split; [done|]. rewrite Rdef_pow_add. split.
  - apply Rle_trans with (y * ulps ^ m); [done|]. rewrite <- Rmult_assoc. apply Rmult_le_compat_r; lra.
  - apply Rle_trans with (y * ulps ^ k); [done|]. rewrite (Rmult_comm (ulps ^ k)), <- Rmult_assoc.
    apply Rmult_le_compat_r; lra.
Qed.
Lemma near_mult k m x y x' y' : near k x y -> near m x' y' -> near (k + m) (x * x') (y * y').
Proof.
  intros Hx Hx'. pose proof (near_nonneg _ _ _ Hx) as Hn. pose proof (near_nonneg _ _ _ Hx') as Hn'.
  destruct Hx as (H1 & H2 & H3), Hx' as (H4 & H5 & H6). split; [by apply Rmult_le_pos|].
  rewrite Rdef_pow_add. split.
  - replace (x * x' * (ulps ^ k * ulps ^ m)) with ((x * ulps ^ k) * (x' * ulps ^ m)) by ring.
    apply Rmult_le_compat; lra.
  - replace (y * y' * (ulps ^ k * ulps ^ m)) with ((y * ulps ^ k) * (y' * ulps ^ m)) by ring.
    apply Rmult_le_compat; lra.
Qed.
Lemma near_plus k x y x' y' : near k x y -> near k x' y' -> near k (x + x') (y + y').
Proof. intros (H1 & H2 & H3) (H4 & H5 & H6). split; [lra|]. split; lra. Qed.
Lemma near_pos k x y : near k x y -> 0 < y -> 0 < x.
Proof.
  intros H Hy. pose proof (near_nonneg _ _ _ H) as [Hx|<-]; [done|]. destruct H as (_ & H & _). lra.
Qed.
Lemma near_inv k x y : 0 < y -> near k x y -> near k (/ x) (/ y).
Proof.
  intros Hy H. pose proof (near_pos _ _ _ H Hy) as Hx. destruct H as (_ & H1 & H2).
  pose proof (pow_ulps_ge k).
  split; [by apply Rlt_le, Rinv_0_lt_compat|]. split.
  - apply (Rmult_le_reg_l y); [done|]. rewrite Rinv_r by lra.
    apply (Rmult_le_reg_l x); [done|]. replace (x * (y * (/ x * ulps ^ k))) with (y * ulps ^ k * (x * / x)) by ring.
    rewrite Rinv_r by lra. lra.
  - apply (Rmult_le_reg_l x); [done|]. rewrite Rinv_r by lra.
    apply (Rmult_le_reg_l y); [done|]. replace (y * (x * (/ y * ulps ^ k))) with (x * ulps ^ k * (y * / y)) by ring.
    rewrite Rinv_r by lra. lra.
Qed.
Lemma near_div k m x y x' y' : near k x y -> near m x' y' -> 0 < y' -> near (k + m) (x / x') (y / y').
Proof. intros H1 H2 Hy. apply near_mult; [done|by apply near_inv]. Qed.

(** A rounding of a number that is 0 or not tiny. *)
Lemma near_rnd x : x = 0 \/ bpow radix2 (-126) <= x -> near 1 (rnd x) x.
Proof.
  intros [->|H]; [rewrite rnd_0; apply (near_mono 0); [lia|by apply near_refl; lra]|].
  pose proof (bpow_gt_0 radix2 (-126)).
  destruct (relative_error_N_FLT_ex radix2 (-149) 24 ltac:(lia) (fun x => negb (Z.even x)) x) as (eps & He & E).
  { rewrite Rabs_right by lra. exact H. }
  unfold near. rewrite !pow_1.
  assert (Er : rnd x = x * (1 + eps)) by exact E. rewrite Er.
  assert (B : Rabs eps <= bpow radix2 (-24)).
  { eapply Rle_trans; [exact He|]. change (- (24) + 1)%Z with (-23)%Z.
    change (bpow radix2 (-24)) with (/ IZR 16777216). change (bpow radix2 (-23)) with (/ IZR 8388608). lra. }
  apply Rabs_le_inv in B. unfold ulps.
  change (bpow radix2 (-24)) with (/ IZR 16777216) in B. change (bpow radix2 (-23)) with (/ IZR 8388608).
  set (v := / IZR 16777216) in *. assert (Ev : / IZR 8388608 = 2 * v) by (unfold v; lra). rewrite Ev.
  assert (Hv : 0 < v < / 4) by (unfold v; lra). split; [lra|]. split.
  - rewrite Rmult_assoc. rewrite <- (Rmult_1_r x) at 1. apply Rmult_le_compat_l; [lra|]. nra.
  - apply Rmult_le_compat_l; [lra|]. lra.
Qed.

Lemma pow_ulps_le k : (k <= 10)%nat -> ulps ^ k <= 1 + bpow radix2 (-19).
Proof.
  intros H. apply Rle_trans with (ulps ^ 10); [apply Rle_pow; [pose proof ulps_gt; lra|done]|].
  unfold ulps. change (bpow radix2 (-23)) with (/ IZR 8388608). change (bpow radix2 (-19)) with (/ IZR 524288).
  set (v := / IZR 8388608). assert (Ev : / IZR 524288 = 16 * v) by (unfold v; lra). rewrite Ev.
  assert (Hv : 0 < v < / 1000000) by (unfold v; lra). clearbody v. clear Ev.
  assert (P1 : (1 + v) ^ 2 <= 1 + 2.1 * v) by (cbn; nra).
  assert (P2 : (1 + v) ^ 5 <= 1 + 6 * v).
  { replace ((1 + v) ^ 5) with ((1 + v) ^ 2 * (1 + v) ^ 2 * (1 + v)) by ring.
    assert (0 <= (1 + v) ^ 2) by nra.
    apply Rle_trans with ((1 + 2.1 * v) * (1 + 2.1 * v) * (1 + v)); [|nra].
    apply Rmult_le_compat_r; [lra|]. apply Rmult_le_compat; lra. }
  replace ((1 + v) ^ 10) with ((1 + v) ^ 5 * (1 + v) ^ 5) by ring.
  assert (0 <= (1 + v) ^ 5) by (apply pow_le; lra).
  apply Rle_trans with ((1 + 6 * v) * (1 + 6 * v)); [|nra].
  apply Rmult_le_compat; lra.
Qed.

Lemma near_error k x y : (k <= 10)%nat -> near k x y -> Rabs (x - y) <= y * bpow radix2 (-19).
Proof.
  intros Hk H. pose proof (pow_ulps_le k Hk) as P. pose proof (near_nonneg _ _ _ H) as Hx.
  destruct H as (H0 & H1 & H2). set (d := bpow radix2 (-19)) in *.
  assert (Hd : 0 < d < / 4) by (unfold d; split; [apply bpow_gt_0|change (bpow radix2 (-19)) with (/ IZR 524288); lra]).
  apply Rabs_le. split.
  - assert (y <= x * (1 + d)) by (eapply Rle_trans; [exact H1|]; apply Rmult_le_compat_l; lra).
    assert (y * (1 - d) <= x); [|lra].
    destruct (Rle_or_lt (y * (1 - d)) x) as [?|L]; [done|]. exfalso.
    assert (x * (1 + d) < y * (1 - d) * (1 + d)) by (apply Rmult_lt_compat_r; lra). nra.
  - assert (x <= y * (1 + d)) by (eapply Rle_trans; [exact H2|]; apply Rmult_le_compat_l; lra). lra.
Qed.
Lemma near_le2 k x y : (k <= 10)%nat -> near k x y -> x <= 2 * y /\ y <= 2 * x.
Proof.
  intros Hk H. pose proof (pow_ulps_le k Hk) as P. pose proof (near_nonneg _ _ _ H) as Hx.
  destruct H as (H0 & H1 & H2). change (bpow radix2 (-19)) with (/ IZR 524288) in P.
  assert (ulps ^ k <= 2) by lra. split; nra.
Qed.

(** Rounding a number that is near one which is 0 or not very small. *)
Lemma near_rnd_trans k x y : (k <= 10)%nat -> near k x y -> y = 0 \/ bpow radix2 (-125) <= y ->
  near (S k) (rnd x) y.
Proof.
  intros Hk H Hy. apply (near_trans 1 k (rnd x) x y); [|done]. apply near_rnd.
  destruct Hy as [->|Hy].
  - left. destruct H as (_ & H1 & H2). pose proof (pow_ulps_ge k). nra.
  - right. destruct (near_le2 _ _ _ Hk H) as [_ L].
    assert (E : bpow radix2 (-125) = 2 * bpow radix2 (-126)) by (change (-125)%Z with (1 + -126)%Z; rewrite bpow_plus; done).
    lra.
Qed.

(** ** The formula *)

Definition jac (c n : Z) : R := IZR c / IZR n.

Definition zero_or_above (e : Z) (x : R) : Prop := x = 0 \/ bpow radix2 e <= x.
Lemma above_weaken e e' x : (e' <= e)%Z -> zero_or_above e x -> zero_or_above e' x.
Proof.
  intros He [->|H]; [by left|right]. eapply Rle_trans; [|exact H]. by apply bpow_le.
Qed.
Lemma above_mult e e' x y : zero_or_above e x -> zero_or_above e' y -> zero_or_above (e + e') (x * y).
Proof.
  intros [->|H] [->|H']; try (left; ring). right. rewrite bpow_plus.
  apply Rmult_le_compat; try (apply bpow_ge_0); done.
Qed.
Lemma above_plus e x y : 0 <= x -> 0 <= y -> zero_or_above e x -> zero_or_above e y -> zero_or_above e (x + y).
Proof.
  intros Hx Hy [->|H] [->|H']; [left; ring|right; lra..].
Qed.
Lemma above_int n : (0 <= n)%Z -> zero_or_above 0 (IZR n).
Proof.
  intros H. destruct (Z.eq_dec n 0%Z) as [->|N]; [by left|right]. cbn. apply IZR_le. lia.
Qed.
Lemma bound_int n : (0 <= n <= 2 ^ 61)%Z -> 0 <= IZR n <= bpow radix2 61.
Proof. intros H. rewrite bpow_IZR by lia. split; apply IZR_le; lia. Qed.
Lemma above_inv n : (0 < n <= 2 ^ 61)%Z -> bpow radix2 (-61) <= / IZR n.
Proof.
  intros H. change (-61)%Z with (- (61))%Z. rewrite bpow_opp. apply Rinv_le; [apply IZR_lt; lia|].
  apply bound_int. lia.
Qed.
Lemma above_jac c n : (0 <= c <= n)%Z -> (0 <= n <= 2 ^ 61)%Z -> zero_or_above (-61) (jac c n).
Proof.
  intros Hc Hn. unfold jac. destruct (Z.eq_dec n 0%Z) as [->|N].
  { replace c with 0%Z by lia. left. unfold Rdiv. ring. }
  apply (above_mult 0%Z (-61)); [apply above_int; lia|]. right. apply above_inv. lia.
Qed.
Lemma jac_range c n : (0 <= c <= n)%Z -> 0 <= jac c n <= 1.
Proof.
  intros H. unfold jac. destruct (Z.eq_dec n 0%Z) as [->|N].
  { replace c with 0%Z by lia. unfold Rdiv. rewrite Rmult_0_l. lra. }
  assert (0 < IZR n) by (apply IZR_lt; lia). split.
  - apply Rmult_le_pos; [apply IZR_le; lia|]. by apply Rlt_le, Rinv_0_lt_compat.
  - apply (Rmult_le_reg_r (IZR n)); [done|]. unfold Rdiv. rewrite Rmult_assoc, Rinv_l by lra.
    rewrite Rmult_1_r, Rmult_1_l. apply IZR_le. lia.
Qed.

Lemma rnd_int_near n : (0 <= n)%Z -> near 1 (rnd (IZR n)) (IZR n).
Proof. intros H. apply near_rnd. apply (above_weaken 0%Z (-126)); [lia|]. by apply above_int. Qed.

Lemma set_sim_near A B : (Z.of_nat (union_size A B) <= 2 ^ 61)%Z ->
  exists a, is_val (set_sim A B) a /\ 0 <= a <= 1 /\
    near 3 a (jac (Z.of_nat (common A B)) (Z.of_nat (union_size A B))).
Proof.
  intros Hu. unfold set_sim. pose proof (common_le_union A B) as Hc.
  destruct (Z.eqb_spec (Z.of_nat (union_size A B)) 0) as [E|E].
  - exists 0. split; [done|]. split; [lra|]. unfold jac. rewrite E.
    replace (Z.of_nat (common A B)) with 0%Z by lia. unfold Rdiv. rewrite Rmult_0_l.
    apply (near_mono 0); [lia|]. apply near_refl. lra.
  - destruct (set_sim_val (Z.of_nat (common A B)) (Z.of_nat (union_size A B)) ltac:(lia) ltac:(lia))
      as (s & Vs & -> & Bs & _). eexists. split; [exact Vs|]. split; [done|].
    apply near_rnd_trans; [lia| |].
    + apply (near_div 1 1); [apply rnd_int_near; lia..|]. apply IZR_lt. lia.
    + apply (above_weaken (-61)); [lia|]. apply above_jac; lia.
Qed.

Lemma weighted_sum_near fu ls lw ds dw a x b y (S1 S2 : R) :
  is_val ls a -> is_val lw x -> is_val ds b -> is_val dw y ->
  0 <= a <= 1 -> 0 <= b <= 1 -> 0 <= x <= size_bound -> 0 <= y <= size_bound ->
  near 4 (a * x) S1 -> near 4 (b * y) S2 -> zero_or_above (-61) S1 -> zero_or_above (-61) S2 ->
  exists s, is_val (weighted_sum fu ls lw ds dw) s /\ near 6 s (S1 + S2).
Proof.
  intros Va Vx Vb Vy Ha Hb Hx Hy N1 N2 Z1 Z2. pose proof size_bound_big as Hbig. pose proof size_bound_pos.
  assert (Hax : 0 <= a * x <= x).
  { split; [apply Rmult_le_pos; lra|]. rewrite <- (Rmult_1_l x) at 2. apply Rmult_le_compat_r; lra. }
  assert (Hby : 0 <= b * y <= y).
  { split; [apply Rmult_le_pos; lra|]. rewrite <- (Rmult_1_l y) at 2. apply Rmult_le_compat_r; lra. }
  assert (Hrx : 0 <= rnd (a * x) <= x).
  { split; [apply rnd_nonneg; lra|]. rewrite <- (is_val_format _ _ Vx) at 2. apply rnd_le. lra. }
  assert (Hry : 0 <= rnd (b * y) <= y).
  { split; [apply rnd_nonneg; lra|]. rewrite <- (is_val_format _ _ Vy) at 2. apply rnd_le. lra. }
  assert (Vax : is_val (f32_mult ls lw) (rnd (a * x))).
  { apply mult_val; [done|done|]. rewrite Rabs_right by lra. lra. }
  assert (Vby : is_val (f32_mult ds dw) (rnd (b * y))).
  { apply mult_val; [done|done|]. rewrite Rabs_right by lra. lra. }
  assert (N1' : near 5 (rnd (a * x)) S1).
  { apply near_rnd_trans; [lia|done|]. apply (above_weaken (-61)); [lia|done]. }
  assert (N2' : near 5 (rnd (b * y)) S2).
  { apply near_rnd_trans; [lia|done|]. apply (above_weaken (-61)); [lia|done]. }
  assert (Z : zero_or_above (-125) (S1 + S2)).
  { apply (above_weaken (-61)); [lia|]. apply above_plus; [apply N1|apply N2|done|done]. }
  apply (near_mono 4 5) in N1; [|lia]. apply (near_mono 4 5) in N2; [|lia].
  destruct fu; cbn [weighted_sum].
  - exists (rnd (rnd (a * x) + rnd (b * y))). split.
    + apply plus_val; [done|done|]. rewrite Rabs_right by lra. lra.
    + apply near_rnd_trans; [lia| |done]. by apply near_plus.
  - exists (rnd (a * x + rnd (b * y))). split.
    + apply fma_val; [done|done|done|]. rewrite Rabs_right by lra. lra.
    + apply near_rnd_trans; [lia| |done]. by apply near_plus.
  - exists (rnd (b * y + rnd (a * x))). split.
    + apply fma_val; [done|done|done|]. rewrite Rabs_right by lra. lra.
    + rewrite (Rplus_comm S1). apply near_rnd_trans; [lia|by apply near_plus|by rewrite Rplus_comm].
Qed.

(** The exact weighted mean of the two indices. *)
Definition wmean (jl lw jd dw : R) : R := 100 * ((jl * lw + jd * dw) / (lw + dw)).

Lemma score_near fu ls lw ds dw a b jl jd :
  is_val ls a -> is_val ds b -> 0 <= a <= 1 -> 0 <= b <= 1 -> near 3 a jl -> near 3 b jd ->
  zero_or_above (-61) jl -> zero_or_above (-61) jd ->
  (0 <= lw <= 2 ^ 61)%Z -> (0 <= dw <= 2 ^ 61)%Z -> (0 < lw \/ 0 < dw)%Z ->
  exists s, is_val (score fu ls lw ds dw) s /\ near 10 s (wmean jl (IZR lw) jd (IZR dw)).
Proof.
  intros Va Vb Ha Hb Na Nb Za Zb Hlw Hdw Hpos. unfold score.
  pose proof size_bound_big as Hbig. pose proof size_bound_pos.
  destruct (weight_val lw Hlw) as (x & Vx & Ex & Bx & Px & _).
  destruct (weight_val dw Hdw) as (y & Vy & Ey & By & Py & _).
  assert (Nx : near 1 x (IZR lw)) by (rewrite Ex; apply rnd_int_near; lia).
  assert (Ny : near 1 y (IZR dw)) by (rewrite Ey; apply rnd_int_near; lia).
  assert (Zs1 : zero_or_above (-61) (jl * IZR lw)).
  { apply (above_mult (-61) 0%Z); [done|apply above_int; lia]. }
  assert (Zs2 : zero_or_above (-61) (jd * IZR dw)).
  { apply (above_mult (-61) 0%Z); [done|apply above_int; lia]. }
  destruct (weighted_sum_near fu ls (f32_of_int lw) ds (f32_of_int dw) a x b y (jl * IZR lw) (jd * IZR dw)
    Va Vx Vb Vy Ha Hb Bx By (near_mult 3 1 _ _ _ _ Na Nx) (near_mult 3 1 _ _ _ _ Nb Ny) Zs1 Zs2) as (s & Vs & Ns).
  destruct (weighted_sum_val fu _ _ _ _ a x b y Va Vx Vb Vy Ha Hb Bx By) as (s' & Vs' & Bs & _).
  assert (s' = s) as -> by (destruct Vs as [_ <-], Vs' as [_ <-]; done).
  assert (Hxy : 1 <= x + y) by (destruct Hpos as [H1|H1]; [pose proof (Px H1)|pose proof (Py H1)]; lra).
  assert (Vden : is_val (f32_plus (f32_of_int lw) (f32_of_int dw)) (rnd (x + y))).
  { apply plus_val; [done|done|]. rewrite Rabs_right by lra. lra. }
  assert (Hden : 1 <= rnd (x + y)).
  { apply Rle_trans with (rnd 1); [rewrite rnd_1; lra|]. apply rnd_le. lra. }
  assert (HD : 1 <= IZR lw + IZR dw <= bpow radix2 62).
  { rewrite <- plus_IZR. split; [apply IZR_le; lia|]. rewrite bpow_IZR by lia. apply IZR_le. lia. }
  assert (Nden : near 2 (rnd (x + y)) (IZR lw + IZR dw)).
  { apply near_rnd_trans; [lia|by apply near_plus|]. right.
    apply Rle_trans with 1; [|lra]. change 1 with (bpow radix2 0). apply bpow_le. lia. }
  assert (Nq : near 8 (s / rnd (x + y)) ((jl * IZR lw + jd * IZR dw) / (IZR lw + IZR dw))).
  { apply (near_div 6 2); [done|done|lra]. }
  assert (Zq : zero_or_above (-123) ((jl * IZR lw + jd * IZR dw) / (IZR lw + IZR dw))).
  { apply (above_mult (-61) (-62)).
    - apply above_plus; [..|done|done].
      + apply Rmult_le_pos; [apply Na|apply IZR_le; lia].
      + apply Rmult_le_pos; [apply Nb|apply IZR_le; lia].
    - right. change (-62)%Z with (- (62))%Z. rewrite bpow_opp. apply Rinv_le; lra. }
  assert (Hq : 0 <= s / rnd (x + y) <= 1).
  { split.
    - apply Rmult_le_pos; [lra|]. apply Rlt_le, Rinv_0_lt_compat. lra.
    - apply (Rmult_le_reg_r (rnd (x + y))); [lra|]. unfold Rdiv.
      rewrite Rmult_assoc, Rinv_l by lra. lra. }
  assert (Vq : is_val (f32_div (weighted_sum fu ls (f32_of_int lw) ds (f32_of_int dw))
    (f32_plus (f32_of_int lw) (f32_of_int dw))) (rnd (s / rnd (x + y)))).
  { apply div_val; [done|done|lra|]. rewrite Rabs_right by lra. lra. }
  assert (Hrq : 0 <= rnd (s / rnd (x + y)) <= 1).
  { split; [apply rnd_nonneg; lra|]. rewrite <- rnd_1. apply rnd_le. lra. }
  assert (Nrq : near 9 (rnd (s / rnd (x + y))) ((jl * IZR lw + jd * IZR dw) / (IZR lw + IZR dw))).
  { apply near_rnd_trans; [lia|done|]. apply (above_weaken (-123)); [lia|done]. }
  assert (V100 : is_val (f32_of_int 100) 100).
  { rewrite <- rnd_100. apply of_int_val. rewrite Rabs_right by lra. lra. }
  exists (rnd (100 * rnd (s / rnd (x + y)))). split.
  - apply mult_val; [done|done|]. rewrite Rabs_right by lra. lra.
  - unfold wmean. apply near_rnd_trans; [lia| |].
    + apply (near_mult 0 9); [apply near_refl; lra|done].
    + apply (above_weaken (-123)); [lia|]. apply (above_mult 0%Z (-123)); [|done].
      right. cbn. lra.
Qed.

(** ** The truncated weight and the exact one *)

Lemma weight_error d f : (0 <= d <= 2 ^ 61)%Z -> 0 <= f <= 1 ->
  let w := Ztrunc (rnd (rnd (IZR d) * f)) in
  Rabs (IZR w - IZR d * f) <= 1 + IZR d * f * bpow radix2 (-19).
Proof.
  intros Hd Hf w. pose proof (rnd_int_near d ltac:(lia)) as Nd. pose proof (bound_int d Hd) as Bd.
  assert (Hx : 0 <= rnd (IZR d) * f) by (apply Rmult_le_pos; [by eapply near_nonneg|lra]).
  assert (HW : 0 <= IZR d * f) by (apply Rmult_le_pos; lra).
  assert (Hr : 0 <= rnd (rnd (IZR d) * f)) by (by apply rnd_nonneg).
  assert (Hw : IZR w <= rnd (rnd (IZR d) * f) < IZR w + 1).
  { unfold w. rewrite Ztrunc_floor by done. split; [apply Zfloor_lb|apply Zfloor_ub]. }
  pose proof (bpow_gt_0 radix2 (-19)).
  assert (Nx : near 1 (rnd (IZR d) * f) (IZR d * f)).
  { apply (near_mult 1 0); [done|apply near_refl; lra]. }
  destruct (Rle_or_lt (bpow radix2 (-125)) (IZR d * f)) as [L|L].
  - assert (N : near 2 (rnd (rnd (IZR d) * f)) (IZR d * f)) by (apply near_rnd_trans; [lia|done|by right]).
    apply near_error in N; [|lia]. apply Rabs_le_inv in N. apply Rabs_le. lra.
  - assert (S : bpow radix2 (-125) <= / 8).
    { change (/ 8) with (bpow radix2 (-3)). apply bpow_le. lia. }
    destruct (near_le2 1 _ _ ltac:(lia) Nx) as [X _].
    assert (W1 : rnd (rnd (IZR d) * f) <= rnd (/ 4)) by (apply rnd_le; lra).
    rewrite (rnd_id (/ 4)) in W1 by (change (/ 4) with (bpow radix2 (-2)); apply format_bpow; lia).
    assert (Hw0 : (w = 0)%Z).
    { assert (w < 1)%Z by (apply lt_IZR; lra).
      assert (0 <= w)%Z by (unfold w; rewrite <- (Ztrunc_IZR 0); by apply Ztrunc_le). lia. }
    rewrite Hw0, Rminus_0_l, Rabs_Ropp, Rabs_right by lra. nra.
Qed.

Lemma wmean_weight jl lw jd w W : 0 <= jl <= 1 -> 0 <= jd <= 1 -> 0 <= lw -> 0 <= w -> 0 <= W ->
  0 < lw + w -> 0 < lw + W ->
  Rabs (wmean jl lw jd w - wmean jl lw jd W) <= 100 * (Rabs (w - W) / (lw + W)).
Proof.
  intros Hl Hd Hlw Hw HW H1 H2. unfold wmean.
  replace (100 * ((jl * lw + jd * w) / (lw + w)) - 100 * ((jl * lw + jd * W) / (lw + W)))
    with (100 * ((w - W) / (lw + W) * (lw / (lw + w) * (jd - jl)))) by (field; lra).
  rewrite Rabs_mult, (Rabs_right 100) by lra. apply Rmult_le_compat_l; [lra|].
  rewrite Rabs_mult. unfold Rdiv at 1 3. rewrite Rabs_mult, (Rabs_right (/ (lw + W))).
  2: { apply Rle_ge, Rlt_le, Rinv_0_lt_compat. done. }
  rewrite <- (Rmult_1_r (Rabs (w - W) * / (lw + W))) at 2.
  apply Rmult_le_compat_l.
  { apply Rmult_le_pos; [apply Rabs_pos|]. by apply Rlt_le, Rinv_0_lt_compat. }
  assert (Q : 0 <= lw / (lw + w) <= 1).
  { split; [apply Rmult_le_pos; [done|by apply Rlt_le, Rinv_0_lt_compat]|].
    apply (Rmult_le_reg_r (lw + w)); [done|]. unfold Rdiv. rewrite Rmult_assoc, Rinv_l by lra. lra. }
  rewrite Rabs_mult, (Rabs_right (lw / (lw + w))) by lra.
  assert (Rabs (jd - jl) <= 1) by (apply Rabs_le; lra).
  assert (0 <= Rabs (jd - jl)) by apply Rabs_pos. nra.
Qed.

(** ** ComputeSimilarity *)

Lemma similarity_near fu oob p q f :
  profile_inv p -> profile_inv q -> fits_memory p -> fits_memory q ->
  is_finite f = true -> 0 <= B2R f <= 1 ->
  let nl := union_size (p_likes p) (p_likes q) in
  let nd := union_size (p_dislikes p) (p_dislikes q) in
  let jl := jac (Z.of_nat (common (p_likes p) (p_likes q))) (Z.of_nat nl) in
  let jd := jac (Z.of_nat (common (p_dislikes p) (p_dislikes q))) (Z.of_nat nd) in
  let w := dislikes_weight nd (B2R f) in
  (nl <> 0%nat \/ w <> 0%Z) ->
  exists r, compute_similarity fu oob p q f = Ret r /\ is_finite r = true /\
    let m := wmean jl (IZR (Z.of_nat nl)) jd (IZR w) in
    let W := IZR (Z.of_nat nd) * B2R f in
    0 <= m <= 100 /\ Rabs (B2R r - m) <= m * bpow radix2 (-19) /\
    Rabs (B2R r - wmean jl (IZR (Z.of_nat nl)) jd W) <=
      100 / (IZR (Z.of_nat nl) + W) + bpow radix2 (-11).
Proof.
  intros Hp Hq [Lp Dp] [Lq Dq] Ff Bf nl nd jl jd w Hpos.
  pose proof Hp as (P1 & P2 & _). pose proof Hq as (Q1 & Q2 & _).
  pose proof (union_size_bound _ _ P1 Q1 Lp Lq) as HL. fold nl in HL.
  pose proof (union_size_bound _ _ P2 Q2 Dp Dq) as HD. fold nd in HD.
  destruct (dislike_weight oob (Z.of_nat nd) f ltac:(lia) Ff Bf) as (w' & Ew & Ew' & Bw & Zw).
  assert (w' = w) as -> by done.
  destruct (set_sim_near _ _ HL) as (a & Va & Ba & Na). fold nl jl in Na.
  destruct (set_sim_near _ _ HD) as (b & Vb & Bb & Nb). fold nd jd in Nb.
  pose proof (common_le_union (p_likes p) (p_likes q)) as Cl. fold nl in Cl.
  pose proof (common_le_union (p_dislikes p) (p_dislikes q)) as Cd. fold nd in Cd.
  rewrite compute_similarity_score by done. fold nl nd. rewrite Ew.
  destruct (score_near fu _ (Z.of_nat nl) _ w a b jl jd Va Vb Ba Bb Na Nb
    ltac:(apply above_jac; lia) ltac:(apply above_jac; lia) ltac:(lia) ltac:(lia) ltac:(lia))
    as (s & [Fs Vs] & Ns).
  eexists. split; [done|]. split; [done|]. rewrite Vs. cbv zeta.
  pose proof (jac_range (Z.of_nat (common (p_likes p) (p_likes q))) (Z.of_nat nl) ltac:(lia)) as Rl. fold jl in Rl.
  pose proof (jac_range (Z.of_nat (common (p_dislikes p) (p_dislikes q))) (Z.of_nat nd) ltac:(lia)) as Rd. fold jd in Rd.
  set (x := IZR (Z.of_nat nl)) in *. set (W := IZR (Z.of_nat nd) * B2R f) in *.
  assert (Hx : 0 <= x) by (apply IZR_le; lia). assert (Hw : 0 <= IZR w) by (apply IZR_le; lia).
  assert (HW : 0 <= W) by (apply Rmult_le_pos; [apply IZR_le; lia|lra]).
  assert (Hxw : 0 < x + IZR w) by (unfold x; rewrite <- plus_IZR; apply IZR_lt; lia).
  assert (HxW : 0 < x + W).
  { destruct Hpos as [H|H].
    - assert (0 < x) by (apply IZR_lt; lia). lra.
    - destruct HW as [HW|HW]; [lra|]. exfalso. apply H. unfold w, dislikes_weight.
      destruct (Rmult_integral _ _ (eq_sym HW)) as [E|E].
      + rewrite E, rnd_0, Rmult_0_l, rnd_0. apply (Ztrunc_IZR 0).
      + rewrite E, Rmult_0_r, rnd_0. apply (Ztrunc_IZR 0). }
  assert (Hm : 0 <= wmean jl x jd (IZR w) <= 100).
  { unfold wmean. assert (0 <= (jl * x + jd * IZR w) / (x + IZR w) <= 1); [|lra]. split.
    - apply Rmult_le_pos; [nra|]. by apply Rlt_le, Rinv_0_lt_compat.
    - apply (Rmult_le_reg_r (x + IZR w)); [done|]. unfold Rdiv. rewrite Rmult_assoc, Rinv_l by lra. nra. }
  pose proof (near_error 10 _ _ ltac:(lia) Ns) as En. split; [done|]. split; [done|].
  pose proof (weight_error (Z.of_nat nd) (B2R f) ltac:(lia) Bf) as We. cbv zeta in We.
  fold (dislikes_weight nd (B2R f)) in We. fold w W in We.
  pose proof (wmean_weight jl x jd (IZR w) W Rl Rd Hx Hw HW Hxw HxW) as Wm.
  assert (D : Rabs (IZR w - W) / (x + W) <= 1 / (x + W) + bpow radix2 (-19)).
  { apply (Rmult_le_reg_r (x + W)); [done|]. unfold Rdiv.
    rewrite Rmult_assoc, Rinv_l, Rmult_plus_distr_r, Rmult_assoc, Rinv_l by lra.
    pose proof (bpow_gt_0 radix2 (-19)). nra. }
  replace (s - wmean jl x jd W)
    with ((s - wmean jl x jd (IZR w)) + (wmean jl x jd (IZR w) - wmean jl x jd W)) by ring.
  eapply Rle_trans; [apply Rabs_triang|].
  change (bpow radix2 (-19)) with (/ IZR 524288) in *. change (bpow radix2 (-11)) with (/ IZR 2048).
  assert (100 / (x + W) = 100 * (1 / (x + W))) by (field; lra). lra.
Qed.

Lemma weight_truncated :
  exists p q f, api_profile p /\ api_profile q /\ fits_memory p /\ fits_memory q /\
    is_finite f = true /\ B2R f = / 2 /\ union_size (p_likes p) (p_likes q) = 1%nat /\
    common (p_likes p) (p_likes q) = 1%nat /\ union_size (p_dislikes p) (p_dislikes q) = 1%nat /\
    common (p_dislikes p) (p_dislikes q) = 0%nat /\
    forall fu oob, exists r, compute_similarity fu oob p q f = Ret r /\ is_finite r = true /\ B2R r = 100.
Proof.
  destruct half_val as [Hf Hv].
  exists (Profile 1 [5%Z] [7%Z]), (Profile 2 [5%Z] []), half.
  split; [exists 1%Z, [OLike 5; ODislike 7]; split; [repeat constructor; done|done]|].
  split; [exists 2%Z, [OLike 5]; split; [repeat constructor; done|done]|].
  do 2 (split; [done|]). split; [exact Hf|]. split; [exact Hv|]. do 4 (split; [reflexivity|]).
  intros fu oob.
  assert (E : match compute_similarity fu oob (Profile 1 [5%Z] [7%Z]) (Profile 2 [5%Z] []) half with
    | Ret r => B2SF r = SpecFloat.S754_finite false 13107200 (-17) | _ => False end)
    by (destruct fu; vm_compute; reflexivity).
  revert E. generalize (compute_similarity fu oob (Profile 1 [5%Z] [7%Z]) (Profile 2 [5%Z] []) half).
  intros [r|e| |] E; try done. exists r. split; [done|]. split.
  - by destruct r.
  - rewrite <- SF2R_B2SF, E. unfold SF2R, F2R. cbn [Fnum Fexp cond_Zopp].
    change (bpow radix2 (-17)) with (/ IZR 131072). lra.
Qed.
