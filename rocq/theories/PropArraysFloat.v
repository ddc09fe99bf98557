(** The float instances of internal/helpers/arrays.go: C105. *)
From Coq Require Import Reals Lra.
From Flocq Require Import Core.Core IEEE754.BinarySingleNaN.
From Verif Require Import Base Arrays Spec ArraysFacts Similarity ArraysFloat ArraysFloatFacts.
Open Scope Z_scope.

Section Spec.
  Context {prec emax : Z}.
  Notation fl := (binary_float prec emax).

  Definition all_finite (h : list fl) : Prop := Forall (fun y => is_finite y = true) h.
  Definition rising (h : list fl) : Prop :=
    forall i j x y, (i < j)%nat -> h !! i = Some x -> h !! j = Some y -> (B2R x <= B2R y)%R.
  Definition strictly_rising (h : list fl) : Prop :=
    forall i j x y, (i < j)%nat -> h !! i = Some x -> h !! j = Some y -> (B2R x < B2R y)%R.
  Definition far (x y : fl) : R := Rabs (B2R x - B2R y).

  (** The difference of the two is a float itself. *)
  Definition representable_difference (x y : fl) : Prop :=
    exists d : fl, is_finite d = true /\ B2R d = far x y.

  (** [x] is a multiple of 2^e, with a factor of at most prec-1 bits. *)
  Definition on_grid (e : Z) (x : fl) : Prop :=
    exists m, B2R x = (IZR m * bpow radix2 e)%R /\ Z.abs m < 2 ^ (prec - 1).
End Spec.

(** The contract, for one float type: the nearest element is found, and putting a value
    into a slice without repetitions gives such a slice with the value added. *)
Definition closest_is_nearest_f (prec emax : Z) {Hp : Prec_gt_0 prec} {He : Prec_lt_emax prec emax} : Prop :=
  forall (h : list (binary_float prec emax)) x, h <> [] -> all_finite h -> is_finite x = true -> strictly_rising h ->
  exists (i : nat) y, closest_g (float_arith prec emax) h x = Ret (Z.of_nat i) /\ h !! i = Some y /\
    forall z, z ∈ h -> (far y x <= far z x)%R.
Definition put_keeps_order_f (prec emax : Z) {Hp : Prec_gt_0 prec} {He : Prec_lt_emax prec emax} : Prop :=
  forall (h : list (binary_float prec emax)) x, all_finite h -> is_finite x = true -> strictly_rising h ->
  exists r, put_saving_order_g (float_arith prec emax) h x = Ret r /\ strictly_rising r.
Definition put_adds_once_f (prec emax : Z) {Hp : Prec_gt_0 prec} {He : Prec_lt_emax prec emax} : Prop :=
  forall (h : list (binary_float prec emax)) x y, Forall (fun y => is_nan y = false) h -> is_nan x = false ->
  (forall i j a b, (i < j)%nat -> h !! i = Some a -> h !! j = Some b -> Bltb a b = true) ->
  y ∈ h -> Beqb x y = true -> put_saving_order_g (float_arith prec emax) h x = Ret h.

(** The model for integers is the one of C01-C06. *)
Theorem C105_same_code_for_integers :
  forall t h x, closest_g (int_arith t) h x = binary_index_of_closest t h x /\
    insert_saving_order_g (int_arith t) h x = insert_saving_order t h x /\
    put_saving_order_g (int_arith t) h x = put_saving_order t h x.
Proof. intros t h x. split; [apply closest_int|]. split; [apply insert_int|apply put_int]. Qed.
Print Assumptions C105_same_code_for_integers.

(** * Refutations *)

Section Witness.
  Context (prec emax : Z) {Hp : Prec_gt_0 prec} {He : Prec_lt_emax prec emax}.
  (** m * 2^e *)
  Definition num (m e : Z) : binary_float prec emax := binary_normalize prec emax _ _ mode_NE m e false.
  Definition wide : list (binary_float prec emax) := [num 0 0; num 1 (- 60); num 5 0].

  Lemma strictly_rising_int (h : list (binary_float prec emax)) : all_finite h ->
    strictly_rising h <-> strictly_ascending (map (f_int prec emax) h).
  Proof.
    intros Hf. unfold all_finite in Hf. rewrite Forall_forall in Hf. split.
    - intros H i j x y Hij Hx Hy. rewrite list_lookup_fmap in Hx. rewrite list_lookup_fmap in Hy.
      destruct (h !! i) as [a|] eqn:Ea; [|done]. destruct (h !! j) as [b|] eqn:Eb; [|done].
      injection Hx as <-. injection Hy as <-.
      apply f_int_lt; [by eapply Hf, elem_of_list_lookup_2|by eapply Hf, elem_of_list_lookup_2|by apply (H i j)].
    - intros H i j x y Hij Hx Hy.
      apply f_int_lt; [by eapply Hf, elem_of_list_lookup_2|by eapply Hf, elem_of_list_lookup_2|].
      apply (H i j); [done| |]; rewrite list_lookup_fmap; [by rewrite Hx|by rewrite Hy].
  Qed.

  Lemma rising_int (h : list (binary_float prec emax)) : all_finite h ->
    rising h <-> ascending (map (f_int prec emax) h).
  Proof.
    intros Hf. unfold all_finite in Hf. rewrite Forall_forall in Hf. split.
    - intros H i j x y Hij Hx Hy. rewrite list_lookup_fmap in Hx. rewrite list_lookup_fmap in Hy.
      destruct (h !! i) as [a|] eqn:Ea; [|done]. destruct (h !! j) as [b|] eqn:Eb; [|done].
      injection Hx as <-. injection Hy as <-.
      apply f_int_le; [by eapply Hf, elem_of_list_lookup_2|by eapply Hf, elem_of_list_lookup_2|by apply (H i j)].
    - intros H i j x y Hij Hx Hy.
      apply f_int_le; [by eapply Hf, elem_of_list_lookup_2|by eapply Hf, elem_of_list_lookup_2|].
      apply (H i j); [done| |]; rewrite list_lookup_fmap; [by rewrite Hx|by rewrite Hy].
  Qed.

  (** |x-y| in multiples of the smallest float. *)
  Lemma far_int (x y z : binary_float prec emax) : is_finite x = true -> is_finite y = true -> is_finite z = true ->
    (far x z <= far y z)%R <-> Z.abs (f_int _ _ x - f_int _ _ z) <= Z.abs (f_int _ _ y - f_int _ _ z).
  Proof.
    intros Fx Fy Fz. unfold far. rewrite (f_int_B2R _ _ x Fx), (f_int_B2R _ _ y Fy), (f_int_B2R _ _ z Fz).
    rewrite <- !Rmult_minus_distr_r, <- !minus_IZR, !Rabs_mult, <- !abs_IZR.
    rewrite (Rabs_pos_eq (bpow _ _)); [|apply bpow_ge_0]. pose proof (bpow_gt_0 radix2 (SpecFloat.emin prec emax)) as Hb.
    split.
    - intros H. apply Rmult_le_reg_r in H; [|done]. by apply le_IZR.
    - intros H. apply Rmult_le_compat_r; [lra|]. by apply IZR_le.
  Qed.
End Witness.

Section Refute.
  Context (prec emax : Z) {Hp : Prec_gt_0 prec} {He : Prec_lt_emax prec emax}.
  Notation fl := (binary_float prec emax).
  Notation one := (num prec emax 1 0).

  (** What is computed for each type. *)
  Hypothesis Hf : forallb is_finite (one :: wide prec emax) = true.
  Hypothesis Hi : exists k, 0 < k /\ f_int prec emax one = 2 ^ 60 * k /\
    map (f_int prec emax) (wide prec emax) = [0; k; 5 * 2 ^ 60 * k].
  Hypothesis Hc : closest_g (float_arith prec emax) (wide prec emax) one = Ret 0.
  Hypothesis Hne : Beqb one (num prec emax 0 0) = false.
  Hypothesis Hlt : Bltb (num prec emax 0 0) one = true.

  Lemma put_wide : put_saving_order_g (float_arith prec emax) (wide prec emax) one =
    insert_at (wide prec emax) 1 one.
  Proof.
    unfold put_saving_order_g. rewrite Hc. unfold wide at 1. cbn [obind].
    change (at_index (wide prec emax) 0) with (Ret (num prec emax 0 0)). cbn [obind float_arith ar_eq ar_lt].
    by rewrite Hne, Hlt.
  Qed.

  Lemma wide_ok : all_finite (wide prec emax) /\ is_finite one = true /\ strictly_rising (wide prec emax).
  Proof.
    cbn [forallb] in Hf. apply andb_prop in Hf as [F1 F2].
    assert (F : all_finite (wide prec emax)) by (apply Forall_forall; intros y Hy;
      by apply (proj1 (forallb_forall _ _) F2), elem_of_list_In).
    split; [done|]. split; [done|]. apply strictly_rising_int; [done|].
    destruct Hi as (k & Hk & _ & ->).
    intros [|[|[|i]]] [|[|[|j]]] x y Hij Hx Hy; cbn in *; simplify_eq; lia.
  Qed.

  Lemma refute_closest : ~ closest_is_nearest_f prec emax.
  Proof.
    intros H. destruct wide_ok as (F & F1 & R).
    destruct (H (wide prec emax) one) as (i & y & E & Hy & Hmin); [done|done|done|done|].
    rewrite Hc in E. injection E as E. assert (i = 0%nat) as -> by lia. injection Hy as <-.
    specialize (Hmin (num prec emax 1 (- 60))). destruct Hi as (k & Hk & E1 & Em). 
    assert (Ek : f_int prec emax (num prec emax 1 (- 60)) = k) by exact (f_equal (fun l => nth 1 l 0) Em).
    unfold all_finite in F. rewrite Forall_forall in F.
    apply far_int in Hmin; [|apply F; left|apply F; right; left|done|right; left].
    rewrite Ek, E1 in Hmin. change (f_int prec emax (B754_zero false)) with 0 in Hmin. lia.
  Qed.

  Lemma refute_put : ~ put_keeps_order_f prec emax.
  Proof.
    intros H. destruct wide_ok as (F & F1 & R).
    destruct (H (wide prec emax) one F F1 R) as (r & E & Hr).
    rewrite put_wide in E. change 1 with (Z.of_nat (length [num prec emax 0 0])) in E.
    change (wide prec emax) with ([num prec emax 0 0] ++ [num prec emax 1 (- 60); num prec emax 5 0]) in E.
    rewrite insert_at_app in E. injection E as <-.
    unfold all_finite in F. rewrite Forall_forall in F.
    pose proof (Hr 1%nat 2%nat one (num prec emax 1 (- 60)) ltac:(lia) eq_refl eq_refl) as L.
    apply f_int_lt in L; [|done|apply F; right; left].
    destruct Hi as (k & Hk & E1 & Em). 
    assert (Ek : f_int prec emax (num prec emax 1 (- 60)) = k) by exact (f_equal (fun l => nth 1 l 0) Em). rewrite E1, Ek in L. lia.
  Qed.
End Refute.

(** The nearest element is not found, because differences are rounded: of 0, 2^-60 and
    5, the element 0 is returned for 1. *)
Theorem C105_closest_refuted : ~ closest_is_nearest_f 24 128 /\ ~ closest_is_nearest_f 53 1024.
Proof.
  split; (apply refute_closest; [vm_compute; reflexivity| |vm_compute; reflexivity]).
  - exists (2 ^ 89). split; [done|]. vm_compute. done.
  - exists (2 ^ 1014). split; [done|]. vm_compute. done.
Qed.
Print Assumptions C105_closest_refuted.

(** Putting 1 into 0, 2^-60, 5 gives 0, 1, 2^-60, 5. *)
Theorem C105_put_order_refuted : ~ put_keeps_order_f 24 128 /\ ~ put_keeps_order_f 53 1024.
Proof.
  split; (apply refute_put; [vm_compute; reflexivity| |vm_compute; reflexivity|vm_compute; reflexivity|vm_compute; reflexivity]).
  - exists (2 ^ 89). split; [done|]. vm_compute. done.
  - exists (2 ^ 1014). split; [done|]. vm_compute. done.
Qed.
Print Assumptions C105_put_order_refuted.

(** An infinity that is in the slice is put into it again. *)
Theorem C105_put_once_refuted :
  forall prec emax (Hp : Prec_gt_0 prec) (He : Prec_lt_emax prec emax), ~ put_adds_once_f prec emax.
Proof.
  intros prec emax Hp He H.
  pose proof (H [B754_zero false; B754_infinity false] (B754_infinity false) (B754_infinity false)) as C.
  assert (E : put_saving_order_g (float_arith prec emax) [B754_zero false; B754_infinity false] (B754_infinity false) =
    Ret [B754_zero false; B754_infinity false]).
  { apply C; [by repeat constructor|done| |by right; left|done].
    intros [|[|i]] [|[|j]] x y Hij Hx Hy; cbn in Hx, Hy; simplify_eq; try lia; reflexivity. }
  cbn in E. discriminate E.
Qed.
Print Assumptions C105_put_once_refuted.

(** * What holds *)

(** The search: infinities and both zeros included, NaN excluded. *)
Theorem C105_search_partial :
  forall prec emax (Hp : Prec_gt_0 prec) (He : Prec_lt_emax prec emax) (h : list (binary_float prec emax)) x,
  Forall (fun y => is_nan y = false) h -> is_nan x = false ->
  (forall i j a b, (i < j)%nat -> h !! i = Some a -> h !! j = Some b -> Bltb b a = false) ->
  exists z, binary_index_of Beqb Bltb h x = Ret z /\
    ((exists (i : nat) y, z = Z.of_nat i /\ h !! i = Some y /\ Beqb y x = true) \/
     (z = -1 /\ forall y, y ∈ h -> Beqb y x = false)).
Proof.
  intros prec emax Hp He h x Hn Hx Hs. rewrite Forall_forall in Hn.
  rewrite (binary_index_sim Beqb Bltb (f_int prec emax) h x);
    [|intros y Hy; apply f_eq_int; auto|intros y Hy; apply f_eq_int; auto|intros y Hy; apply f_lt_int; auto].
  destruct (binary_index_of_spec Z.eqb Z.ltb Z_total_order (map (f_int prec emax) h) (f_int prec emax x))
    as (z & E & Hz).
  { intros i j a b Hij Ha Hb. rewrite list_lookup_fmap in Ha. rewrite list_lookup_fmap in Hb.
    destruct (h !! i) as [a'|] eqn:Ea; [|done]. destruct (h !! j) as [b'|] eqn:Eb; [|done].
    injection Ha as <-. injection Hb as <-.
    pose proof (Hn a' (elem_of_list_lookup_2 _ _ _ Ea)) as Na. pose proof (Hn b' (elem_of_list_lookup_2 _ _ _ Eb)) as Nb.
    rewrite <- (f_lt_int prec emax b' a' Nb Na). by apply (Hs i j). }
  exists z. split; [done|]. destruct Hz as [(i & -> & Hi) | (-> & Hno)].
  - left. rewrite list_lookup_fmap in Hi. destruct (h !! i) as [y|] eqn:Ey; [|done]. injection Hi as Hi.
    exists i, y. split; [done|]. split; [done|].
    rewrite (f_eq_int prec emax y x (Hn y (elem_of_list_lookup_2 _ _ _ Ey)) Hx). by apply Z.eqb_eq.
  - right. split; [done|]. intros y Hy. rewrite (f_eq_int prec emax y x (Hn y Hy) Hx). apply Z.eqb_neq. intros E'.
    apply elem_of_list_lookup in Hy as [i Hi]. apply (Hno i). by rewrite list_lookup_fmap, Hi, <- E'.
Qed.
Print Assumptions C105_search_partial.

(** No value is lost and none is invented, whatever the slice and the value, NaN
    included. *)
Theorem C105_nothing_lost :
  forall prec emax (Hp : Prec_gt_0 prec) (He : Prec_lt_emax prec emax) (h : list (binary_float prec emax)) x,
  (exists l1 l2, h = l1 ++ l2 /\ insert_saving_order_g (float_arith prec emax) h x = Ret (l1 ++ x :: l2)) /\
  ((put_saving_order_g (float_arith prec emax) h x = Ret h /\ exists y, y ∈ h /\ Beqb x y = true) \/
   exists l1 l2, h = l1 ++ l2 /\ put_saving_order_g (float_arith prec emax) h x = Ret (l1 ++ x :: l2)).
Proof. intros prec emax Hp He h x. split; [apply insert_any|apply (put_any (float_arith prec emax))]. Qed.
Print Assumptions C105_nothing_lost.

(** If no difference to the value is rounded, all is as for integers. *)
Theorem C105_exact_partial :
  forall prec emax (Hp : Prec_gt_0 prec) (He : Prec_lt_emax prec emax) (h : list (binary_float prec emax)) x,
  all_finite h -> is_finite x = true -> Forall (fun y => representable_difference y x) h ->
  (rising h -> h <> [] -> exists (i : nat) y, closest_g (float_arith prec emax) h x = Ret (Z.of_nat i) /\
     h !! i = Some y /\ forall z, z ∈ h -> (far y x <= far z x)%R) /\
  (strictly_rising h -> exists r, put_saving_order_g (float_arith prec emax) h x = Ret r /\ strictly_rising r /\
     (forall y, y ∈ h -> B2R y = B2R x -> r = h)) /\
  (strictly_rising h -> exists r, insert_saving_order_g (float_arith prec emax) h x = Ret r /\ rising r).
Proof.
  intros prec emax Hp He h x Fh Fx Hd.
  assert (Hfin : forall y, y ∈ h -> is_finite y = true) by (unfold all_finite in Fh; by rewrite Forall_forall in Fh).
  split; [|split].
  - intros Hr Hne. rewrite (closest_float prec emax h x Fh Fx Hd).
    destruct (closest_exact (map (f_int prec emax) h) (f_int prec emax x)) as (i & y & E & Hy & Hmin).
    + by apply rising_int.
    + by destruct h.
    + rewrite list_lookup_fmap in Hy. destruct (h !! i) as [y'|] eqn:Ey; [|done]. injection Hy as <-.
      exists i, y'. split; [done|]. split; [done|]. intros z Hz.
      apply far_int; [by eapply Hfin, elem_of_list_lookup_2|auto|done|].
      apply elem_of_list_lookup in Hz as [j Hj]. apply (Hmin j). by rewrite list_lookup_fmap, Hj.
  - intros Hr. apply strictly_rising_int in Hr; [|done].
    destruct (put_exact (map (f_int prec emax) h) (f_int prec emax x) Hr) as (r & E & Hs & Hin & Hsame).
    rewrite (put_float prec emax h x Fh Fx Hd) in E.
    destruct (put_any (float_arith prec emax) h x) as [[Ep _] | (l1 & l2 & Eh & Ep)].
    + rewrite Ep in E |- *. injection E as <-. exists h. split; [done|]. split; [by apply strictly_rising_int|done].
    + rewrite Ep in E |- *. cbn [obind] in E. injection E as <-. eexists. split; [done|].
      assert (Fr : all_finite (l1 ++ x :: l2)).
      { unfold all_finite in *. rewrite Eh in Fh. apply Forall_app in Fh as [F1 F2]. apply Forall_app. split; [done|].
        by constructor. }
      split; [by apply strictly_rising_int|]. intros y Hy Ey. exfalso.
      assert (Hm : f_int prec emax x ∈ map (f_int prec emax) h).
      { apply elem_of_list_fmap. exists y. split; [|done]. symmetry. apply f_int_eq; auto. }
      specialize (Hsame Hm). apply (f_equal length) in Hsame. rewrite Eh, !map_length, !app_length in Hsame. cbn in Hsame. lia.
  - intros Hr. apply strictly_rising_int in Hr; [|done].
    destruct (insert_exact (map (f_int prec emax) h) (f_int prec emax x)) as (r & E & Hs & _).
    { by apply strictly_ascending_ascending. }
    { by right. }
    rewrite (insert_float prec emax h x Fh Fx Hd) in E.
    destruct (insert_any (float_arith prec emax) h x) as (l1 & l2 & Eh & Ep).
    rewrite Ep in E |- *. cbn [obind] in E. injection E as <-. eexists. split; [done|].
    apply rising_int; [|done].
    unfold all_finite in *. rewrite Eh in Fh. apply Forall_app in Fh as [F1 F2]. apply Forall_app. split; [done|].
    by constructor.
Qed.
Print Assumptions C105_exact_partial.

(** For instance whole numbers (e = 0) of less than prec-1 bits, amounts in 2^-8, ... *)
Theorem C105_grid :
  forall prec emax (Hp : Prec_gt_0 prec) (He : Prec_lt_emax prec emax) e (x y : binary_float prec emax),
  3 - emax - prec <= e -> e + prec <= emax -> on_grid e x -> on_grid e y -> representable_difference x y.
Proof.
  intros prec emax Hp He e x y H1 H2 (m & Em & Hm) (n & En & Hn).
  exists (binary_normalize prec emax _ _ mode_NE (Z.abs (m - n)) e false).
  assert (Ed : far x y = F2R (Float radix2 (Z.abs (m - n)) e)).
  { unfold far, F2R. cbn [Fnum Fexp]. rewrite Em, En, <- Rmult_minus_distr_r, <- minus_IZR, Rabs_mult, <- abs_IZR.
    rewrite (Rabs_pos_eq (bpow _ _)); [done|apply bpow_ge_0]. }
  assert (Hlt : Z.abs (m - n) < 2 ^ prec).
  { pose proof Hp as Hp'. unfold Prec_gt_0 in Hp'. replace prec with (Z.succ (prec - 1)) by lia.
    rewrite Z.pow_succ_r by lia. lia. }
  assert (G : generic_format radix2 (SpecFloat.fexp prec emax) (F2R (Float radix2 (Z.abs (m - n)) e))).
  { apply generic_format_FLT. exists (Float radix2 (Z.abs (m - n)) e); [done| |exact H1].
    cbn [Fnum]. rewrite Z.abs_eq by lia. exact Hlt. }
  pose proof (binary_normalize_correct prec emax _ _ mode_NE (Z.abs (m - n)) e false) as C. cbv zeta in C.
  rewrite round_generic in C; [|apply valid_rnd_round_mode|done].
  rewrite Rlt_bool_true in C.
  - destruct C as (C1 & C2 & _). split; [done|]. by rewrite C1, Ed.
  - rewrite <- F2R_Zabs, Z.abs_eq by lia. unfold F2R. cbn [Fnum Fexp].
    apply Rlt_le_trans with (bpow radix2 prec * bpow radix2 e)%R.
    + apply Rmult_lt_compat_r; [apply bpow_gt_0|]. rewrite <- IZR_Zpower; [|pose proof Hp as Hp'; unfold Prec_gt_0 in Hp'; lia].
      by apply IZR_lt.
    + rewrite <- bpow_plus. apply bpow_le. lia.
Qed.
Print Assumptions C105_grid.

Example C105_case :
  let n m := num 24 128 m 0 in
  let show := map (f_int 24 128) in
  all_finite [n 1; n 5; n 9] /\ strictly_rising [n 1; n 5; n 9] /\
  Forall (fun y => representable_difference y (n 7)) [n 1; n 5; n 9] /\
  obind (put_saving_order_g (float_arith 24 128) [n 1; n 5; n 9] (n 7)) (fun r => Ret (show r)) =
    Ret (show [n 1; n 5; n 7; n 9]).
Proof.
  cbv zeta. assert (F : all_finite [num 24 128 1 0; num 24 128 5 0; num 24 128 9 0]).
  { unfold all_finite. repeat constructor; vm_compute; reflexivity. }
  split; [done|]. split; [|split; [|vm_compute; reflexivity]].
  - apply strictly_rising_int; [done|].
    replace (map (f_int 24 128) [num 24 128 1 0; num 24 128 5 0; num 24 128 9 0])
      with [2 ^ 149; 5 * 2 ^ 149; 9 * 2 ^ 149] by (vm_compute; reflexivity).
    intros [|[|[|i]]] [|[|[|j]]] x y Hij Hx Hy; cbn in *; simplify_eq; lia.
  - assert (G : forall m, 0 <= m < 16 -> on_grid 0 (num 24 128 m 0)).
    { intros m Hm. exists m. split; [|change (2 ^ (24 - 1)) with 8388608; lia].
      pose proof (binary_normalize_correct 24 128 _ _ mode_NE m 0 false) as C. cbv zeta in C.
      rewrite round_generic in C; [|apply valid_rnd_round_mode|].
      2:{ apply generic_format_FLT. exists (Float radix2 m 0); [done| |done]. cbn [Fnum].
          change (Z.pow radix2 24) with 16777216. lia. }
      rewrite Rlt_bool_true in C; [by destruct C as (C & _)|].
      unfold F2R. cbn [Fnum Fexp bpow]. rewrite Rmult_1_r, <- abs_IZR. apply (IZR_lt (Z.abs m) (Z.pow_pos 2 128)).
      change (Z.pow_pos 2 128) with (2 ^ 128). lia. }
    repeat constructor; apply (C105_grid 24 128 _ _ 0); try lia; apply G; lia.
Qed.
