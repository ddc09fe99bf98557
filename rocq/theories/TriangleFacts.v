(** The weighted Jaccard distance obeys the triangle inequality. *)
From Coq Require Import Reals Lra.
From Verif Require Import Base Spec.
Open Scope R_scope.

(** The seven regions of three sets. *)
Lemma regions (A B C : gset Z) : exists a b c ab ac bc abc : nat,
  size (A ∩ B) = (ab + abc)%nat /\ size (A ∪ B) = (a + b + ab + ac + bc + abc)%nat /\
  size (B ∩ C) = (bc + abc)%nat /\ size (B ∪ C) = (b + c + ab + ac + bc + abc)%nat /\
  size (A ∩ C) = (ac + abc)%nat /\ size (A ∪ C) = (a + c + ab + ac + bc + abc)%nat.
Proof.
  exists (size (A ∖ (B ∪ C))), (size (B ∖ (A ∪ C))), (size (C ∖ (A ∪ B))),
    (size ((A ∩ B) ∖ C)), (size ((A ∩ C) ∖ B)), (size ((B ∩ C) ∖ A)), (size (A ∩ B ∩ C)).
  assert (Hd : forall (X Y Z : gset Z), (forall x, x ∈ Z <-> x ∈ X \/ x ∈ Y) -> X ## Y ->
    size Z = (size X + size Y)%nat).
  { intros X Y Z HZ HD. rewrite <- size_union by done. f_equal. apply set_eq. intros x.
    rewrite HZ, elem_of_union. done. }
  assert (Hdec : forall x (X : gset Z), x ∈ X \/ x ∉ X) by (intros x X; destruct (decide (x ∈ X)); tauto).
  assert (HA : size A = (size (A ∖ (B ∪ C)) + size ((A ∩ B) ∖ C) + size ((A ∩ C) ∖ B) + size (A ∩ B ∩ C))%nat).
  { rewrite <- !size_union by set_solver. f_equal. apply set_eq. intros x.
    rewrite !elem_of_union, !elem_of_difference, !elem_of_union, !elem_of_intersection.
    destruct (Hdec x A), (Hdec x B), (Hdec x C); tauto. }
  assert (HB : size B = (size (B ∖ (A ∪ C)) + size ((A ∩ B) ∖ C) + size ((B ∩ C) ∖ A) + size (A ∩ B ∩ C))%nat).
  { rewrite <- !size_union by set_solver. f_equal. apply set_eq. intros x.
    rewrite !elem_of_union, !elem_of_difference, !elem_of_union, !elem_of_intersection.
    destruct (Hdec x A), (Hdec x B), (Hdec x C); tauto. }
  assert (HC : size C = (size (C ∖ (A ∪ B)) + size ((A ∩ C) ∖ B) + size ((B ∩ C) ∖ A) + size (A ∩ B ∩ C))%nat).
  { rewrite <- !size_union by set_solver. f_equal. apply set_eq. intros x.
    rewrite !elem_of_union, !elem_of_difference, !elem_of_union, !elem_of_intersection.
    destruct (Hdec x A), (Hdec x B), (Hdec x C); tauto. }
  assert (H3 : forall X Y Z : gset Z, size (X ∩ Y) = (size ((X ∩ Y) ∖ Z) + size (X ∩ Y ∩ Z))%nat).
  { intros X Y Z. apply Hd; [|set_solver]. intros x.
    rewrite elem_of_difference, !elem_of_intersection. destruct (Hdec x Z); tauto. }
  pose proof (H3 A B C) as HAB. pose proof (H3 B C A) as HBC. pose proof (H3 A C B) as HAC.
  assert (E1 : B ∩ C ∩ A = A ∩ B ∩ C) by (apply set_eq; intros x; rewrite !elem_of_intersection; tauto).
  assert (E2 : A ∩ C ∩ B = A ∩ B ∩ C) by (apply set_eq; intros x; rewrite !elem_of_intersection; tauto).
  rewrite E1 in HBC. rewrite E2 in HAC.
  assert (HU : forall X Y : gset Z, (size (X ∪ Y) + size (X ∩ Y) = size X + size Y)%nat).
  { intros X Y. rewrite (Hd X (Y ∖ X) (X ∪ Y)); [|intros x; rewrite elem_of_union, elem_of_difference;
      destruct (Hdec x X); tauto|set_solver].
    rewrite (Hd (Y ∖ X) (X ∩ Y) Y); [lia| |set_solver]. intros x.
    rewrite elem_of_difference, elem_of_intersection. destruct (Hdec x X); tauto. }
  pose proof (HU A B). pose proof (HU B C). pose proof (HU A C). lia.
Qed.

(** The weight of a region: likes count 1, dislikes count [f]. *)
Lemma frac_up N D b : 0 <= N <= D -> 0 < D -> 0 <= b -> N / D <= (N + b) / (D + b).
Proof.
  intros HN HD Hb. apply (Rmult_le_reg_r (D * (D + b))); [nra|].
  replace (N / D * (D * (D + b))) with (N * (D + b)) by (field; lra).
  replace ((N + b) / (D + b) * (D * (D + b))) with ((N + b) * D) by (field; lra). nra.
Qed.

Lemma frac_shrink N D D' : 0 <= N -> 0 < D <= D' -> N / D' <= N / D.
Proof.
  intros HN HD. unfold Rdiv. apply Rmult_le_compat_l; [done|]. apply Rinv_le_contravar; lra.
Qed.

(** Distances 1 - J of three sets with regions of any weights. *)
Lemma triangle_regions (a b c ab ac bc abc : R) :
  0 <= a -> 0 <= b -> 0 <= c -> 0 <= ab -> 0 <= ac -> 0 <= bc -> 0 <= abc ->
  let uab := a + b + ab + ac + bc + abc in
  let ubc := b + c + ab + ac + bc + abc in
  let uac := a + c + ab + ac + bc + abc in
  0 < uab -> 0 < ubc -> 0 < uac ->
  (ab + abc) / uab + (bc + abc) / ubc - 1 <= (ac + abc) / uac.
Proof.
  intros Ha Hb Hc Hab Hac Hbc Habc uab ubc uac U1 U2 U3.
  set (U := a + b + c + ab + ac + bc + abc).
  assert (E1 : (ab + abc) / uab = 1 - (a + b + ac + bc) / uab) by (unfold uab; field; unfold uab in U1; lra).
  assert (E2 : (bc + abc) / ubc = 1 - (b + c + ab + ac) / ubc) by (unfold ubc; field; unfold ubc in U2; lra).
  assert (E3 : (ac + abc) / uac = 1 - (a + c + ab + bc) / uac) by (unfold uac; field; unfold uac in U3; lra).
  rewrite E1, E2, E3.
  assert (D1 : (a + b + ac + bc) / U <= (a + b + ac + bc) / uab) by (apply frac_shrink; unfold uab, U in *; lra).
  assert (D2 : (b + c + ab + ac) / U <= (b + c + ab + ac) / ubc) by (apply frac_shrink; unfold ubc, U in *; lra).
  assert (D3 : (a + c + ab + bc) / uac <= (a + c + ab + bc + b) / U).
  { replace U with (uac + b) by (unfold uac, U; ring). apply frac_up; unfold uac in *; lra. }
  assert (HU : 0 < U) by (unfold U, uab in *; lra).
  assert (D4 : (a + c + ab + bc + b) / U <= (a + b + ac + bc) / U + (b + c + ab + ac) / U).
  { unfold Rdiv. rewrite <- Rmult_plus_distr_r. apply Rmult_le_compat_r; [by apply Rlt_le, Rinv_0_lt_compat|]. lra. }
  lra.
Qed.

(** The fraction of agreement between two users: what both like and [f] times what both
    dislike, over what either likes and [f] times what either dislikes. *)
Definition agreement (A A' B B' : list Z) (f : R) : R :=
  (INR (common A B) + INR (common A' B') * f) / (INR (union_size A B) + INR (union_size A' B') * f).

Lemma agreement_triangle (A A' B B' C C' : list Z) (f : R) : 0 <= f ->
  0 < INR (union_size A B) + INR (union_size A' B') * f ->
  0 < INR (union_size B C) + INR (union_size B' C') * f ->
  0 < INR (union_size A C) + INR (union_size A' C') * f ->
  agreement A A' B B' f + agreement B B' C C' f - 1 <= agreement A A' C C' f.
Proof.
  intros Hf. unfold agreement, common, union_size.
  destruct (regions (list_to_set A) (list_to_set B) (list_to_set C))
    as (a & b & c & ab & ac & bc & abc & -> & -> & -> & -> & -> & ->).
  destruct (regions (list_to_set A') (list_to_set B') (list_to_set C'))
    as (a' & b' & c' & ab' & ac' & bc' & abc' & -> & -> & -> & -> & -> & ->).
  rewrite !plus_INR. intros U1 U2 U3.
  assert (Hn : forall n m : nat, 0 <= INR n + INR m * f).
  { intros n m. pose proof (pos_INR n). pose proof (pos_INR m). nra. }
  pose proof (triangle_regions (INR a + INR a' * f) (INR b + INR b' * f) (INR c + INR c' * f)
    (INR ab + INR ab' * f) (INR ac + INR ac' * f) (INR bc + INR bc' * f) (INR abc + INR abc' * f)
    (Hn _ _) (Hn _ _) (Hn _ _) (Hn _ _) (Hn _ _) (Hn _ _) (Hn _ _)) as H.
  cbv zeta in H.
  assert (E : forall x y x' y', x = x' -> y = y' -> x / y = x' / y') by (intros; subst; done).
  eapply Rle_trans; [|eapply Rle_trans; [apply H|]].
  - apply Req_le. f_equal. f_equal; apply E; ring.
  - lra.
  - lra.
  - lra.
  - apply Req_le. apply E; ring.
Qed.
