(** Proofs about ComputeSimilarity on binary32. *)
From Coq Require Import Reals Lra.
From Flocq Require Import Core.Core IEEE754.BinarySingleNaN.
From Verif Require Import Base Arrays Spec ArraysFacts Profile ProfileFacts Similarity.
Open Scope Z_scope.

(** ** Counting *)

Lemma size_list_to_set_NoDup (l : list Z) : NoDup l -> size (list_to_set l : gset Z) = length l.
Proof. intros H. by rewrite size_list_to_set. Qed.

Lemma size_add (X Y : gset Z) (a : Z) : a ∉ X -> a ∈ Y ->
  size (({[a]} ∪ X) ∩ Y) = S (size (X ∩ Y)).
Proof.
  intros Ha Hb. replace (({[a]} ∪ X) ∩ Y) with ({[a]} ∪ (X ∩ Y)) by set_solver.
  rewrite size_union by set_solver. by rewrite size_singleton.
Qed.

Lemma count_common_spec A B :
  strictly_ascending A -> strictly_ascending B ->
  count_common A B = Ret (Z.of_nat (common A B)).
Proof.
  intros HA HB. unfold common. induction A as [|a A IH]; cbn [count_common].
  - cbn. rewrite intersection_empty_l_L, size_empty. done.
  - apply strictly_ascending_cons in HA as [HA Hlt]. rewrite (IH HA).
    assert (Hna : a ∉ A) by (intros H; specialize (Hlt a H); lia).
    cbn [list_to_set].
    destruct (index_u64_spec B a HB) as [(l1 & l2 & -> & _ & _ & E)|[Hn E]]; rewrite E; cbn [obind].
    + destruct (Z.leb_spec 0 (Z.of_nat (length l1))); [|lia]. f_equal.
      rewrite size_add by set_solver. lia.
    + destruct (Z.leb_spec 0 (-1)); [lia|]. do 3 f_equal. set_solver.
Qed.

Lemma common_comm A B : common A B = common B A.
Proof. unfold common. by rewrite intersection_comm_L. Qed.

Lemma union_size_comm A B : union_size A B = union_size B A.
Proof. unfold union_size. by rewrite union_comm_L. Qed.

Lemma union_size_spec A B : NoDup A -> NoDup B ->
  (union_size A B + common A B)%nat = (length A + length B)%nat.
Proof.
  intros HA HB. unfold union_size, common.
  rewrite <- (size_list_to_set_NoDup A HA), <- (size_list_to_set_NoDup B HB).
  set (X := list_to_set A : gset Z). set (Y := list_to_set B : gset Z).
  rewrite size_union_alt.
  assert (E : size Y = (size (Y ∖ X) + size (X ∩ Y))%nat).
  { rewrite <- size_union by set_solver. f_equal. apply set_eq. intros x.
    destruct (decide (x ∈ X)); set_solver. }
  lia.
Qed.

Lemma common_le_union A B : (common A B <= union_size A B)%nat.
Proof. unfold common, union_size. apply subseteq_size. set_solver. Qed.

Lemma similarity_between_sets_spec A B :
  strictly_ascending A -> strictly_ascending B ->
  similarity_between_sets A B =
  Ret (if (Z.of_nat (union_size A B) =? 0) then B754_zero false
       else f32_div (f32_of_int (Z.of_nat (common A B))) (f32_of_int (Z.of_nat (union_size A B))),
       Z.of_nat (union_size A B)).
Proof.
  intros HA HB. unfold similarity_between_sets. rewrite count_common_spec by done. cbn [obind].
  pose proof (union_size_spec A B (strictly_ascending_NoDup _ HA) (strictly_ascending_NoDup _ HB)).
  replace (Z.of_nat (length A) + Z.of_nat (length B) - Z.of_nat (common A B))
    with (Z.of_nat (union_size A B)) by lia.
  destruct (Z.eqb_spec (Z.of_nat (union_size A B)) 0) as [E|E]; [|done]. by rewrite E.
Qed.

(** ** Rounding *)

Notation fexp32 := (SpecFloat.fexp 24 128).
Notation rnd := (round radix2 fexp32 ZnearestE).

#[local] Instance fexp32_valid : Valid_exp fexp32 := fexp_correct 24 128 _.

Local Open Scope R_scope.

Lemma rnd_le x y : x <= y -> rnd x <= rnd y.
Proof. apply round_le; apply _. Qed.

Lemma rnd_id x : generic_format radix2 fexp32 x -> rnd x = x.
Proof. apply round_generic; apply _. Qed.

Lemma rnd_0 : rnd 0 = 0.
Proof. apply round_0. apply _. Qed.

Lemma rnd_nonneg x : 0 <= x -> 0 <= rnd x.
Proof. intros H. rewrite <- rnd_0. by apply rnd_le. Qed.

Lemma format_small_int n : (Z.abs n <= 2 ^ 24)%Z -> generic_format radix2 fexp32 (IZR n).
Proof.
  intros H. apply (generic_format_FLT radix2 (SpecFloat.emin 24 128) 24).
  destruct (Z.eq_dec (Z.abs n) (2 ^ 24)%Z) as [E|E].
  - exists (Float radix2 (n / 2) 1).
    + unfold F2R; cbn [Fnum Fexp bpow].
      assert (n = 2 * (n / 2))%Z as En.
      { change (2 ^ 24)%Z with 16777216%Z in E.
        destruct (Z.abs_spec n) as [[_ Hn]|[_ Hn]]; rewrite Hn in E.
        - subst n. reflexivity.
        - apply (f_equal Z.opp) in E. rewrite Z.opp_involutive in E. subst n. reflexivity. }
      rewrite En at 1. rewrite mult_IZR. change (IZR (Z.pow_pos radix2 1)) with 2. lra.
    + cbn [Fnum]. change (Zpower radix2 24) with (2 ^ 24)%Z.
      pose proof (Z.div_mod n 2 ltac:(lia)). pose proof (Z.mod_pos_bound n 2 ltac:(lia)). lia.
    + cbn. unfold SpecFloat.emin. lia.
  - exists (Float radix2 n 0).
    + unfold F2R; cbn. lra.
    + cbn [Fnum]. change (Zpower radix2 24) with (2 ^ 24)%Z. lia.
    + cbn. unfold SpecFloat.emin. lia.
Qed.

Lemma rnd_1 : rnd 1 = 1.
Proof. apply rnd_id, (format_small_int 1). lia. Qed.

Lemma rnd_100 : rnd 100 = 100.
Proof. apply rnd_id, (format_small_int 100). lia. Qed.

Lemma format_bpow e : (-149 <= e < 128)%Z -> generic_format radix2 fexp32 (bpow radix2 e).
Proof.
  intros H. apply generic_format_bpow. unfold SpecFloat.fexp, SpecFloat.emin. lia.
Qed.

(** Anything between 0 and 2^100 rounds without overflow. *)
Definition big : R := bpow radix2 100.

Lemma rnd_big x : Rabs x <= big -> Rabs (rnd x) <= big.
Proof.
  intros H. apply abs_round_le_generic; try apply _; [|done].
  apply format_bpow. lia.
Qed.

Lemma no_overflow x : Rabs x <= big ->
  Rlt_bool (Rabs (rnd x)) (bpow radix2 128) = true.
Proof.
  intros H. apply Rlt_bool_true. apply Rle_lt_trans with big; [by apply rnd_big|].
  apply bpow_lt. lia.
Qed.

(** A finite float32 with its real value. *)
Definition is_val (x : f32) (r : R) : Prop := is_finite x = true /\ B2R x = r.

Lemma is_val_format x r : is_val x r -> rnd r = r.
Proof. intros [_ <-]. apply rnd_id. apply generic_format_B2R. Qed.

Lemma of_int_val n : Rabs (IZR n) <= big -> is_val (f32_of_int n) (rnd (IZR n)).
Proof.
  intros H. pose proof (binary_normalize_correct 24 128 _ _ mode_NE n 0 false) as C. cbv zeta in C.
  assert (E : F2R (Float radix2 n 0) = IZR n) by (unfold F2R; cbn; lra).
  rewrite E in C. cbn [round_mode] in C. rewrite (no_overflow _ H) in C.
  destruct C as (C1 & C2 & _). done.
Qed.

Lemma mult_val x y a b : is_val x a -> is_val y b -> Rabs (a * b) <= big ->
  is_val (f32_mult x y) (rnd (a * b)).
Proof.
  intros [Fx Vx] [Fy Vy] H. pose proof (Bmult_correct 24 128 _ _ mode_NE x y) as C.
  rewrite Vx, Vy in C. cbn [round_mode] in C. rewrite (no_overflow _ H) in C.
  destruct C as (C1 & C2 & _). split; [|done]. unfold f32_mult. rewrite C2, Fx, Fy. done.
Qed.

Lemma plus_val x y a b : is_val x a -> is_val y b -> Rabs (a + b) <= big ->
  is_val (f32_plus x y) (rnd (a + b)).
Proof.
  intros [Fx Vx] [Fy Vy] H. pose proof (Bplus_correct 24 128 _ _ mode_NE x y Fx Fy) as C.
  rewrite Vx, Vy in C. cbn [round_mode] in C. rewrite (no_overflow _ H) in C.
  destruct C as (C1 & C2 & _). done.
Qed.

Lemma fma_val x y z a b c : is_val x a -> is_val y b -> is_val z c ->
  Rabs (a * b + c) <= big -> is_val (f32_fma x y z) (rnd (a * b + c)).
Proof.
  intros [Fx Vx] [Fy Vy] [Fz Vz] H.
  pose proof (Bfma_correct 24 128 _ _ mode_NE x y z Fx Fy Fz) as C. cbv zeta in C.
  rewrite Vx, Vy, Vz in C. cbn [round_mode] in C. rewrite (no_overflow _ H) in C.
  destruct C as (C1 & C2 & _). done.
Qed.

Lemma div_val x y a b : is_val x a -> is_val y b -> b <> 0 -> Rabs (a / b) <= big ->
  is_val (f32_div x y) (rnd (a / b)).
Proof.
  intros [Fx Vx] [Fy Vy] Hb H.
  pose proof (Bdiv_correct 24 128 _ _ mode_NE x y ltac:(by rewrite Vy)) as C.
  rewrite Vx, Vy in C. cbn [round_mode] in C. rewrite (no_overflow _ H) in C.
  destruct C as (C1 & C2 & _). split; [|done]. unfold f32_div. rewrite C2, Fx. done.
Qed.

Lemma bpow_IZR k : (0 <= k)%Z -> bpow radix2 k = IZR (2 ^ k).
Proof. intros H. by rewrite <- IZR_Zpower. Qed.

(** Sizes of Go slices of 8-byte elements are below 2^60. *)
Definition size_bound : R := bpow radix2 61.
Lemma size_bound_big : size_bound * 4 <= big.
Proof. unfold size_bound, big. rewrite !bpow_IZR by lia. rewrite <- mult_IZR. apply IZR_le. done. Qed.
Lemma size_bound_pos : 100 <= size_bound.
Proof. unfold size_bound. rewrite bpow_IZR by lia. apply IZR_le. done. Qed.

(** The weight of a union as a float. *)
Lemma weight_val n : (0 <= n <= 2 ^ 61)%Z ->
  exists w, is_val (f32_of_int n) w /\ w = rnd (IZR n) /\ 0 <= w <= size_bound /\
    ((0 < n)%Z -> 1 <= w) /\ (n = 0%Z -> w = 0).
Proof.
  intros [H0 H1]. exists (rnd (IZR n)).
  assert (Hr : 0 <= IZR n <= size_bound).
  { split; [by apply IZR_le|]. unfold size_bound. rewrite bpow_IZR by lia. by apply IZR_le. }
  pose proof size_bound_big. pose proof size_bound_pos.
  split; [apply of_int_val; rewrite Rabs_right; lra|]. split; [done|].
  split; [split|split].
  - apply rnd_nonneg. lra.
  - rewrite <- (rnd_id size_bound) by (apply format_bpow; lia). apply rnd_le. lra.
  - intros Hn. rewrite <- rnd_1. apply rnd_le. apply IZR_le. lia.
  - intros ->. apply rnd_0.
Qed.

(** Similarity of two sets: a float between 0 and 1. *)
Lemma set_sim_val (c u : Z) : (0 <= c <= u)%Z -> (0 < u <= 2 ^ 61)%Z ->
  exists s, is_val (f32_div (f32_of_int c) (f32_of_int u)) s /\
    s = rnd (rnd (IZR c) / rnd (IZR u)) /\ 0 <= s <= 1 /\
    (c = u -> s = 1) /\ (c = 0%Z -> s = 0).
Proof.
  intros [Hc0 Hcu] [Hu0 Hu1].
  destruct (weight_val c ltac:(lia)) as (wc & Vc & Ec & Bc & Pc & Zc).
  destruct (weight_val u ltac:(lia)) as (wu & Vu & Eu & Bu & Pu & Zu).
  assert (Hwu : 1 <= wu) by (apply Pu; lia).
  assert (Hle : wc <= wu) by (rewrite Ec, Eu; apply rnd_le, IZR_le; lia).
  assert (Hq : 0 <= wc / wu <= 1).
  { split.
    - apply Rmult_le_pos; [lra|]. apply Rlt_le, Rinv_0_lt_compat. lra.
    - apply (Rmult_le_reg_r wu); [lra|]. unfold Rdiv. rewrite Rmult_assoc, Rinv_l by lra. lra. }
  pose proof size_bound_big. pose proof size_bound_pos.
  exists (rnd (wc / wu)). split; [|split; [|split; [|split]]].
  - apply div_val; [done|done|lra|]. rewrite Rabs_right by lra. lra.
  - by rewrite Ec, Eu.
  - split; [apply rnd_nonneg; lra|]. apply Rle_trans with (rnd 1); [apply rnd_le; lra|rewrite rnd_1; lra].
  - intros ->. assert (wc = wu) as -> by (by rewrite Ec, Eu).
    unfold Rdiv. rewrite Rinv_r by lra. apply rnd_1.
  - intros Hc. rewrite (Zc Hc). unfold Rdiv. rewrite Rmult_0_l. apply rnd_0.
Qed.

(** Truncated dislike weight. *)
Lemma dislike_weight oob (d : Z) (f : f32) :
  (0 <= d <= 2 ^ 61)%Z -> is_finite f = true -> 0 <= B2R f <= 1 ->
  exists w, f32_to_int oob (f32_mult (f32_of_int d) f) = w /\
    w = Ztrunc (rnd (rnd (IZR d) * B2R f)) /\ (0 <= w <= 2 ^ 61)%Z /\ (d = 0%Z -> w = 0%Z).
Proof.
  intros Hd Ff Bf. pose proof size_bound_big. pose proof size_bound_pos.
  destruct (weight_val d Hd) as (wd & Vd & Ed & Bd & Pd & Zd).
  assert (Hp : 0 <= wd * B2R f <= size_bound).
  { split; [apply Rmult_le_pos; lra|].
    apply Rle_trans with (wd * 1); [apply Rmult_le_compat_l; lra|lra]. }
  destruct (mult_val (f32_of_int d) f wd (B2R f) Vd ltac:(done)) as [Fm Vm].
  { rewrite Rabs_right by lra. lra. }
  assert (Et : Btrunc (f32_mult (f32_of_int d) f) = Ztrunc (rnd (wd * B2R f))).
  { apply eq_IZR. rewrite (Btrunc_correct 24 128 _). unfold f32, f32_mult in *. rewrite Vm.
    unfold round, F2R, scaled_mantissa, cexp, FIX_exp. cbn [Fnum Fexp bpow Z.opp].
    rewrite !Rmult_1_r. done. }
  assert (Hr : 0 <= rnd (wd * B2R f) <= size_bound).
  { split; [apply rnd_nonneg; lra|].
    rewrite <- (rnd_id size_bound) by (apply format_bpow; lia). apply rnd_le. lra. }
  assert (Hw : (0 <= Ztrunc (rnd (wd * B2R f)) <= 2 ^ 61)%Z).
  { split.
    - rewrite <- (Ztrunc_IZR 0). apply Ztrunc_le, Hr.
    - rewrite <- (Ztrunc_IZR (2 ^ 61)%Z). apply Ztrunc_le.
      rewrite <- bpow_IZR by lia. apply Hr. }
  exists (Ztrunc (rnd (wd * B2R f))). split; [|split; [|split]].
  - unfold f32_to_int. unfold f32 in *. rewrite Fm, Et. cbn [andb].
    change (tmin I64) with (- 2 ^ 63)%Z. change (tmax I64) with (2 ^ 63 - 1)%Z.
    destruct (Z.leb_spec (- 2 ^ 63)%Z (Ztrunc (rnd (wd * B2R f)))); [|lia].
    destruct (Z.leb_spec (Ztrunc (rnd (wd * B2R f))) (2 ^ 63 - 1)%Z); [done|lia].
  - by rewrite Ed.
  - done.
  - intros H0'. rewrite (Zd H0'), Rmult_0_l, rnd_0. apply (Ztrunc_IZR 0).
Qed.

(** ** The whole formula *)

(** What [compute_similarity] computes from the two similarities and weights. *)
Definition score (fu : fusion) (ls : f32) (lw : Z) (ds : f32) (dw : Z) : f32 :=
  f32_mult (f32_of_int 100)
    (f32_div (weighted_sum fu ls (f32_of_int lw) ds (f32_of_int dw))
             (f32_plus (f32_of_int lw) (f32_of_int dw))).

Lemma weighted_sum_val fu ls lw ds dw a x b y :
  is_val ls a -> is_val lw x -> is_val ds b -> is_val dw y ->
  0 <= a <= 1 -> 0 <= b <= 1 -> 0 <= x <= size_bound -> 0 <= y <= size_bound ->
  exists s, is_val (weighted_sum fu ls lw ds dw) s /\ 0 <= s <= rnd (x + y) /\
    (a * x = x -> b * y = y -> s = rnd (x + y)) /\ (a = 0 -> b = 0 -> s = 0).
Proof.
  intros Va Vx Vb Vy Ha Hb Hx Hy. pose proof size_bound_big as Hbig. pose proof size_bound_pos.
  assert (Hax : 0 <= a * x <= x).
  { split; [apply Rmult_le_pos; lra|]. rewrite <- (Rmult_1_l x) at 2. apply Rmult_le_compat_r; lra. }
  assert (Hby : 0 <= b * y <= y).
  { split; [apply Rmult_le_pos; lra|]. rewrite <- (Rmult_1_l y) at 2. apply Rmult_le_compat_r; lra. }
  assert (Hrx : 0 <= rnd (a * x) <= x).
  { split; [apply rnd_nonneg; lra|]. rewrite <- (is_val_format _ _ Vx) at 2. apply rnd_le. lra. }
  assert (Hry : 0 <= rnd (b * y) <= y).
  { split; [apply rnd_nonneg; lra|]. rewrite <- (is_val_format _ _ Vy) at 2. apply rnd_le. lra. }
  assert (Vax : is_val (f32_mult ls lw) (rnd (a * x))).
  { apply mult_val; [done|done|]. rewrite Rabs_right by lra. lra. }
  assert (Vby : is_val (f32_mult ds dw) (rnd (b * y))).
  { apply mult_val; [done|done|]. rewrite Rabs_right by lra. lra. }
  destruct fu; cbn [weighted_sum].
  - exists (rnd (rnd (a * x) + rnd (b * y))). split; [|split; [|split]].
    + apply plus_val; [done|done|]. rewrite Rabs_right by lra. lra.
    + split; [apply rnd_nonneg; lra|apply rnd_le; lra].
    + intros -> ->. by rewrite (is_val_format _ _ Vx), (is_val_format _ _ Vy).
    + intros -> ->. rewrite !Rmult_0_l, !rnd_0, Rplus_0_l. apply rnd_0.
  - exists (rnd (a * x + rnd (b * y))). split; [|split; [|split]].
    + apply fma_val; [done|done|done|]. rewrite Rabs_right by lra. lra.
    + split; [apply rnd_nonneg; lra|apply rnd_le; lra].
    + intros -> ->. by rewrite (is_val_format _ _ Vy).
    + intros -> ->. rewrite !Rmult_0_l, !rnd_0, Rplus_0_l. apply rnd_0.
  - exists (rnd (b * y + rnd (a * x))). split; [|split; [|split]].
    + apply fma_val; [done|done|done|]. rewrite Rabs_right by lra. lra.
    + split; [apply rnd_nonneg; lra|apply rnd_le; lra].
    + intros -> ->. rewrite (is_val_format _ _ Vx). f_equal. lra.
    + intros -> ->. rewrite !Rmult_0_l, !rnd_0, Rplus_0_l. apply rnd_0.
Qed.

Lemma score_val fu ls lw ds dw a b :
  is_val ls a -> is_val ds b -> 0 <= a <= 1 -> 0 <= b <= 1 ->
  (0 <= lw <= 2 ^ 61)%Z -> (0 <= dw <= 2 ^ 61)%Z -> (0 < lw \/ 0 < dw)%Z ->
  exists s, is_val (score fu ls lw ds dw) s /\ 0 <= s <= 100 /\
    ((lw = 0%Z \/ a = 1) -> (dw = 0%Z \/ b = 1) -> s = 100) /\
    (a = 0 -> b = 0 -> s = 0).
Proof.
  intros Va Vb Ha Hb Hlw Hdw Hpos. unfold score.
  pose proof size_bound_big as Hbig. pose proof size_bound_pos.
  destruct (weight_val lw Hlw) as (x & Vx & Ex & Bx & Px & Zx).
  destruct (weight_val dw Hdw) as (y & Vy & Ey & By & Py & Zy).
  destruct (weighted_sum_val fu _ _ _ _ a x b y Va Vx Vb Vy Ha Hb Bx By)
    as (s & Vs & Bs & S1 & S0).
  assert (Hxy : 1 <= x + y) by (destruct Hpos as [H1|H1]; [pose proof (Px H1)|pose proof (Py H1)]; lra).
  assert (Vden : is_val (f32_plus (f32_of_int lw) (f32_of_int dw)) (rnd (x + y))).
  { apply plus_val; [done|done|]. rewrite Rabs_right by lra. lra. }
  assert (Hden : 1 <= rnd (x + y)).
  { apply Rle_trans with (rnd 1); [rewrite rnd_1; lra|]. apply rnd_le. lra. }
  assert (Hq : 0 <= s / rnd (x + y) <= 1).
  { split.
    - apply Rmult_le_pos; [lra|]. apply Rlt_le, Rinv_0_lt_compat. lra.
    - apply (Rmult_le_reg_r (rnd (x + y))); [lra|]. unfold Rdiv.
      rewrite Rmult_assoc, Rinv_l by lra. lra. }
  assert (Vq : is_val (f32_div (weighted_sum fu ls (f32_of_int lw) ds (f32_of_int dw))
    (f32_plus (f32_of_int lw) (f32_of_int dw))) (rnd (s / rnd (x + y)))).
  { apply div_val; [done|done|lra|]. rewrite Rabs_right by lra. lra. }
  assert (Hrq : 0 <= rnd (s / rnd (x + y)) <= 1).
  { split; [apply rnd_nonneg; lra|].
    apply Rle_trans with (rnd 1); [apply rnd_le; lra|rewrite rnd_1; lra]. }
  assert (V100 : is_val (f32_of_int 100) 100).
  { rewrite <- rnd_100. apply of_int_val. rewrite Rabs_right by lra. lra. }
  exists (rnd (100 * rnd (s / rnd (x + y)))). split; [|split; [|split]].
  - apply mult_val; [done|done|]. rewrite Rabs_right by lra. lra.
  - split; [apply rnd_nonneg; lra|].
    apply Rle_trans with (rnd 100); [apply rnd_le; lra|rewrite rnd_100; lra].
  - intros H1 H2. assert (s = rnd (x + y)) as ->.
    { apply S1.
      - destruct H1 as [H1 | ->]; [rewrite (Zx H1); lra|lra].
      - destruct H2 as [H2 | ->]; [rewrite (Zy H2); lra|lra]. }
    unfold Rdiv. rewrite Rinv_r by lra. rewrite rnd_1, Rmult_1_r. apply rnd_100.
  - intros H1 H2. rewrite (S0 H1 H2). unfold Rdiv. rewrite Rmult_0_l, rnd_0, Rmult_0_r. apply rnd_0.
Qed.

Lemma score_nan fu ls ds : is_finite ls = true -> is_finite ds = true ->
  score fu ls 0 ds 0 = B754_nan.
Proof. intros Hl Hd. destruct fu, ls, ds; try discriminate; destruct s, s0; reflexivity. Qed.

Local Open Scope Z_scope.

(** Set similarity as used in the formula. *)
Definition set_sim (A B : list Z) : f32 :=
  if (Z.of_nat (union_size A B) =? 0) then B754_zero false
  else f32_div (f32_of_int (Z.of_nat (common A B))) (f32_of_int (Z.of_nat (union_size A B))).

Lemma set_sim_props A B : Z.of_nat (union_size A B) <= 2 ^ 61 ->
  exists s, is_val (set_sim A B) s /\ (0 <= s <= 1)%R /\
    (union_size A B <> 0%nat -> common A B = union_size A B -> s = 1%R) /\
    (common A B = 0%nat -> s = 0%R).
Proof.
  intros Hu. unfold set_sim. pose proof (common_le_union A B).
  destruct (Z.eqb_spec (Z.of_nat (union_size A B)) 0).
  - exists 0%R. repeat split; try lra. lia.
  - destruct (set_sim_val (Z.of_nat (common A B)) (Z.of_nat (union_size A B))) as (s & V & _ & Bs & S1 & S0);
      [lia|lia|].
    exists s. split; [done|]. split; [done|]. split.
    + intros _ E. apply S1. lia.
    + intros E. apply S0. lia.
Qed.

Lemma compute_similarity_score fu oob p q f :
  profile_inv p -> profile_inv q ->
  compute_similarity fu oob p q f =
  Ret (score fu (set_sim (p_likes p) (p_likes q)) (Z.of_nat (union_size (p_likes p) (p_likes q)))
         (set_sim (p_dislikes p) (p_dislikes q))
         (f32_to_int oob (f32_mult
            (f32_of_int (Z.of_nat (union_size (p_dislikes p) (p_dislikes q)))) f))).
Proof.
  intros (H1 & H2 & _) (H3 & H4 & _). unfold compute_similarity.
  rewrite !similarity_between_sets_spec by done. done.
Qed.

Lemma similarity_symmetric fu oob p q f :
  profile_inv p -> profile_inv q ->
  compute_similarity fu oob p q f = compute_similarity fu oob q p f.
Proof.
  intros Hp Hq. rewrite !compute_similarity_score by done. unfold set_sim.
  rewrite (union_size_comm (p_likes p)), (common_comm (p_likes p)).
  rewrite (union_size_comm (p_dislikes p)), (common_comm (p_dislikes p)). done.
Qed.

Lemma union_size_bound A B : strictly_ascending A -> strictly_ascending B ->
  Z.of_nat (length A) < 2 ^ 60 -> Z.of_nat (length B) < 2 ^ 60 ->
  Z.of_nat (union_size A B) <= 2 ^ 61.
Proof.
  intros HA HB LA LB.
  pose proof (union_size_spec A B (strictly_ascending_NoDup _ HA) (strictly_ascending_NoDup _ HB)). lia.
Qed.

Lemma union_size_0 A B : union_size A B = 0%nat <-> A = [] /\ B = [].
Proof.
  unfold union_size. rewrite size_empty_iff. split.
  - intros H. split.
    + destruct A as [|a A]; [done|]. exfalso. apply (not_elem_of_empty (C:=gset Z) a).
      rewrite <- H. set_solver.
    + destruct B as [|a B]; [done|]. exfalso. apply (not_elem_of_empty (C:=gset Z) a).
      rewrite <- H. set_solver.
  - intros [-> ->]. set_solver.
Qed.

(** Truncated weight of the dislikes, as a plain formula. *)
Definition dislikes_weight (n : nat) (f : R) : Z :=
  Ztrunc (rnd (rnd (IZR (Z.of_nat n)) * f)).

Section Similarity.
  Context (fu : fusion) (oob : f32 -> Z) (p q : profile) (f : f32).
  Context (Hp : profile_inv p) (Hq : profile_inv q).
  Context (Lp : Z.of_nat (length (p_likes p)) < 2 ^ 60) (Lq : Z.of_nat (length (p_likes q)) < 2 ^ 60)
          (Dp : Z.of_nat (length (p_dislikes p)) < 2 ^ 60) (Dq : Z.of_nat (length (p_dislikes q)) < 2 ^ 60).
  Context (Ff : is_finite f = true) (Bf : (0 <= B2R f <= 1)%R).

  Let lw := union_size (p_likes p) (p_likes q).
  Let dw := dislikes_weight (union_size (p_dislikes p) (p_dislikes q)) (B2R f).

  Lemma similarity_cases :
    0 <= dw /\ (union_size (p_dislikes p) (p_dislikes q) = 0%nat -> dw = 0) /\
    (lw = 0%nat -> dw = 0 -> compute_similarity fu oob p q f = Ret B754_nan) /\
    (lw <> 0%nat \/ 0 < dw -> exists r, compute_similarity fu oob p q f = Ret r /\
       is_finite r = true /\ (0 <= B2R r <= 100)%R /\
       (common (p_likes p) (p_likes q) = lw ->
        common (p_dislikes p) (p_dislikes q) = union_size (p_dislikes p) (p_dislikes q) ->
        B2R r = 100%R) /\
       (common (p_likes p) (p_likes q) = 0%nat -> common (p_dislikes p) (p_dislikes q) = 0%nat ->
        B2R r = 0%R)).
  Proof using All.
    pose proof Hp as (P1 & P2 & _). pose proof Hq as (Q1 & Q2 & _).
    pose proof (union_size_bound _ _ P1 Q1 Lp Lq) as HL. fold lw in HL.
    pose proof (union_size_bound _ _ P2 Q2 Dp Dq) as HD.
    destruct (dislike_weight oob (Z.of_nat (union_size (p_dislikes p) (p_dislikes q))) f
                ltac:(lia) Ff Bf) as (w & Ew & Ew' & Bw & Zw).
    assert (w = dw) as -> by done.
    destruct (set_sim_props _ _ HL) as (a & Va & Ba & A1 & A0).
    destruct (set_sim_props _ _ HD) as (b & Vb & Bb & B1 & B0).
    split; [lia|]. split; [intros E; apply Zw; lia|].
    rewrite compute_similarity_score by done. rewrite Ew. fold lw. split.
    - intros El Ed. rewrite El, Ed. f_equal. apply score_nan; [apply Va|apply Vb].
    - intros Hpos.
      destruct (score_val fu _ (Z.of_nat lw) _ dw a b Va Vb Ba Bb ltac:(lia) ltac:(lia) ltac:(lia))
        as (s & [Fs Vs] & Bs & S1 & S0).
      eexists. split; [done|]. split; [done|]. split; [rewrite Vs; lra|]. split.
      + intros C1 C2. rewrite Vs. apply S1.
        * destruct (decide (lw = 0%nat)); [left; lia|right; by apply A1].
        * destruct (decide (union_size (p_dislikes p) (p_dislikes q) = 0%nat)) as [E|E];
            [left; apply Zw; lia|right; by apply B1].
      + intros C1 C2. rewrite Vs. apply S0; auto.
  Qed.
End Similarity.

(** ** Forms used by the property file *)

Lemma rnd_int n : (0 <= n <= 2 ^ 24) -> rnd (IZR n) = IZR n.
Proof. intros H. apply rnd_id, format_small_int. lia. Qed.

Lemma jaccard_rounded A B :
  strictly_ascending A -> strictly_ascending B -> Z.of_nat (union_size A B) <= 2 ^ 24 ->
  exists s, similarity_between_sets A B = Ret (s, Z.of_nat (union_size A B)) /\
    is_finite s = true /\
    (union_size A B = 0%nat -> B2R s = 0%R) /\
    (union_size A B <> 0%nat ->
     B2R s = rnd (INR (common A B) / INR (union_size A B))%R).
Proof.
  intros HA HB Hu. rewrite similarity_between_sets_spec by done. fold (set_sim A B).
  eexists. split; [done|]. unfold set_sim. pose proof (common_le_union A B).
  destruct (Z.eqb_spec (Z.of_nat (union_size A B)) 0).
  - split; [done|]. split; [done|lia].
  - destruct (set_sim_val (Z.of_nat (common A B)) (Z.of_nat (union_size A B)))
      as (s & [Fs Vs] & Es & _); [lia|lia|].
    split; [done|]. split; [lia|]. intros _. rewrite Vs, Es, !rnd_int by lia.
    by rewrite !INR_IZR_INZ.
Qed.

Definition api_profile (p : profile) : Prop :=
  exists u ops, Forall (fun o => is_u64 (op_item o)) ops /\ run_profile (new_profile u) ops = Ret p.

Lemma api_profile_inv p : api_profile p -> profile_inv p.
Proof.
  intros (u & ops & Hu & E). destruct (run_profile_spec u ops Hu) as (p' & E' & Hi & _).
  rewrite E in E'. by injection E' as <-.
Qed.

Lemma similarity_symmetric_api fu oob p q f :
  api_profile p -> api_profile q ->
  exists r, compute_similarity fu oob p q f = Ret r /\ compute_similarity fu oob q p f = Ret r.
Proof.
  intros Hp%api_profile_inv Hq%api_profile_inv.
  rewrite (similarity_symmetric fu oob q p) by done.
  rewrite compute_similarity_score by done. eauto.
Qed.

(** Every Go slice of 8-byte elements is shorter than 2^60. *)
Definition fits_memory (p : profile) : Prop :=
  Z.of_nat (length (p_likes p)) < 2 ^ 60 /\ Z.of_nat (length (p_dislikes p)) < 2 ^ 60.

Lemma similarity_range fu oob p q f :
  api_profile p -> api_profile q -> fits_memory p -> fits_memory q ->
  is_finite f = true -> (0 <= B2R f <= 1)%R ->
  let lw := union_size (p_likes p) (p_likes q) in
  let dw := dislikes_weight (union_size (p_dislikes p) (p_dislikes q)) (B2R f) in
  exists r, compute_similarity fu oob p q f = Ret r /\
    (lw <> 0%nat \/ dw <> 0 -> is_finite r = true /\ (0 <= B2R r <= 100)%R) /\
    (lw = 0%nat /\ dw = 0 -> r = B754_nan).
Proof.
  intros Hp%api_profile_inv Hq%api_profile_inv [L1 D1] [L2 D2] Ff Bf lw dw.
  destruct (similarity_cases fu oob p q f Hp Hq L1 L2 D1 D2 Ff Bf) as (Hd & _ & Hn & Hv).
  fold lw dw in Hd, Hn, Hv.
  destruct (decide (lw = 0%nat)) as [El|El], (decide (dw = 0)) as [Ed|Ed].
  - exists B754_nan. split; [by apply Hn|]. split; [naive_solver|done].
  - destruct Hv as (r & E & F & B & _); [right; lia|]. exists r. split; [done|]. naive_solver.
  - destruct Hv as (r & E & F & B & _); [by left|]. exists r. split; [done|]. naive_solver.
  - destruct Hv as (r & E & F & B & _); [by left|]. exists r. split; [done|]. naive_solver.
Qed.

Lemma similarity_self_disjoint fu oob p q f :
  api_profile p -> api_profile q -> fits_memory p -> fits_memory q ->
  is_finite f = true -> (0 <= B2R f <= 1)%R ->
  (union_size (p_likes p) (p_likes q) <> 0%nat \/
   dislikes_weight (union_size (p_dislikes p) (p_dislikes q)) (B2R f) <> 0) ->
  exists r, compute_similarity fu oob p q f = Ret r /\ is_finite r = true /\
    (p_likes p = p_likes q -> p_dislikes p = p_dislikes q -> B2R r = 100%R) /\
    ((forall x, x ∈ p_likes p -> x ∉ p_likes q) ->
     (forall x, x ∈ p_dislikes p -> x ∉ p_dislikes q) -> B2R r = 0%R).
Proof.
  intros Hp%api_profile_inv Hq%api_profile_inv [L1 D1] [L2 D2] Ff Bf Hpos.
  destruct (similarity_cases fu oob p q f Hp Hq L1 L2 D1 D2 Ff Bf) as (Hd & _ & _ & Hv).
  destruct Hv as (r & E & F & _ & R100 & R0).
  { destruct Hpos as [?|?]; [by left|right; lia]. }
  exists r. split; [done|]. split; [done|]. split.
  - intros E1 E2. apply R100; rewrite ?E1, ?E2; unfold common, union_size; f_equal; set_solver.
  - intros E1 E2. apply R0; unfold common; apply size_empty_iff; set_solver.
Qed.

Definition half : f32 := f32_div (f32_of_int 1) (f32_of_int 2).

Lemma half_val : is_val half (/ 2)%R.
Proof.
  split; [reflexivity|]. unfold f32. rewrite <- SF2R_B2SF.
  assert (E : B2SF half = SpecFloat.S754_finite false 8388608 (-24)) by (vm_compute; reflexivity).
  rewrite E. unfold SF2R, F2R. cbn [Fnum Fexp]. change (bpow radix2 (-24)) with (/ 16777216)%R.
  cbn [cond_Zopp]. lra.
Qed.

(** Two non-empty, identical profiles whose similarity is not a number. *)
Lemma similarity_not_a_number :
  exists p f, api_profile p /\ fits_memory p /\ p_dislikes p <> [] /\
    is_finite f = true /\ (0 < B2R f <= 1)%R /\
    forall fu oob, compute_similarity fu oob p p f = Ret B754_nan.
Proof.
  destruct half_val as [Hf Hv].
  exists (Profile 1 [] [7]), half. split; [|split; [|split; [|split; [|split]]]].
  - exists 1, [ODislike 7]. split; [repeat constructor; done|done].
  - done.
  - done.
  - exact Hf.
  - rewrite Hv. lra.
  - intros fu oob. destruct fu; reflexivity.
Qed.
