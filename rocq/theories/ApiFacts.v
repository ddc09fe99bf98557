(** Proofs about request validation. *)
From Coq Require Import Reals Lra.
From Flocq Require Import Core.Core IEEE754.BinarySingleNaN.
From Verif Require Import Base GoIO Similarity SimilarityFacts Naming Service Api ServiceSession
  SpecNames NamesFacts ServiceFacts.
#[local] Open Scope Z_scope.

Lemma f32_zero_val : is_finite (f32_of_int 0) = true /\ B2R (f32_of_int 0) = 0%R.
Proof. split; reflexivity. Qed.

Lemma f32_one_val : is_finite (f32_of_int 1) = true /\ B2R (f32_of_int 1) = 1%R.
Proof.
  assert (V : is_val (f32_of_int 1) (rnd (IZR 1))).
  { apply of_int_val. rewrite Rabs_pos_eq by lra. change 1%R with (bpow radix2 0).
    apply bpow_le. lia. }
  rewrite rnd_id in V; [exact V|]. change 1%R with (bpow radix2 0). apply format_bpow. lia.
Qed.

Lemma f32_leb_finite x y :
  is_finite x = true -> is_finite y = true -> f32_leb x y = true <-> (B2R x <= B2R y)%R.
Proof.
  intros Fx Fy. unfold f32_leb. rewrite (Bcompare_correct _ _ x y Fx Fy).
  destruct (Rcompare_spec (B2R x) (B2R y)); split; intros; try done; lra.
Qed.

Lemma min0_max1 x : tag_min0_max1 x = true <-> factor_in_range x.
Proof.
  unfold tag_min0_max1, factor_in_range. destruct f32_zero_val as [F0 V0].
  destruct f32_one_val as [F1 V1]. rewrite andb_true_iff. destruct (is_finite x) eqn:F.
  - rewrite !f32_leb_finite by done. rewrite V0, V1. split; [intros []|intros []]; tauto.
  - split; [|by intros []]. intros [H1 H2]. exfalso.
    destruct x as [|[]| |]; try done.
Qed.

Lemma required_float x : tag_required_float x = true <-> forall b, x <> B754_zero b.
Proof. destruct x; cbn; split; try done. intros H. by destruct (H s). Qed.

Lemma required_float_val x :
  is_finite x = true -> tag_required_float x = true <-> B2R x <> 0%R.
Proof.
  intros F. destruct x as [s| | |s m e Hm]; cbn in *; try done.
  split; [|done]. intros _. unfold F2R. cbn. intros H.
  apply Rmult_integral in H as [H|H].
  - destruct s; cbn in H; apply eq_IZR in H; lia.
  - pose proof (bpow_gt_0 radix2 e). lra.
Qed.

Lemma alphanum_lower s :
  tag_required_string s && tag_lowercase s && tag_alphanum s = true <->
  s <> [] /\ Forall (fun b => lower_letter b \/ digit b) s.
Proof.
  rewrite !andb_true_iff. unfold tag_alphanum, alphanum_regex. rewrite match_first_rest.
  assert (R : forall b, in_ranges [(97, 122); (65, 90); (48, 57)] b = true <->
              lower_letter b \/ upper_letter b \/ digit b).
  { intros b. rewrite !in_ranges_cons, in_ranges_nil. unfold lower_letter, upper_letter, digit. lia. }
  assert (U : forall b, negb (is_upper b) = true <-> ~ upper_letter b).
  { intros b. unfold is_upper, upper_letter. rewrite negb_true_iff, andb_false_iff, !Z.leb_gt. lia. }
  split.
  - intros [[H1 H2] (c & r & -> & Hc & Hr)]. split; [done|].
    cbn [tag_lowercase] in H2. rewrite forallb_forall in H2.
    apply Forall_forall. intros b Hb.
    assert (Hu : ~ upper_letter b) by (apply U, H2; by apply elem_of_list_In).
    assert (Hi : lower_letter b \/ upper_letter b \/ digit b).
    { apply R. apply elem_of_cons in Hb as [->|Hb]; [done|].
      by apply (proj1 (Forall_forall _ _) Hr). }
    tauto.
  - intros [Hne Hs]. destruct s as [|c r]; [done|]. split; [split; [done|]|].
    + cbn [tag_lowercase]. apply forallb_forall. intros b Hb. apply U.
      apply elem_of_list_In in Hb. apply (proj1 (Forall_forall _ _) Hs) in Hb.
      unfold lower_letter, upper_letter, digit in *. lia.
    + exists c, r. split; [done|]. apply Forall_cons in Hs as [Hc Hr]. split.
      * apply R. tauto.
      * eapply Forall_impl; [exact Hr|]. intros b Hb. apply R. cbv beta in Hb. tauto.
Qed.

Lemma api_name_split s :
  api_name_ok s <-> name_ok s /\ s <> [] /\ Forall (fun b => lower_letter b \/ digit b) s.
Proof.
  split.
  - intros (c & r & -> & Hc & Hr). split; [|split; [done|]].
    + exists c, r. split; [done|]. split; [by left|].
      eapply Forall_impl; [exact Hr|]. intros b Hb. cbv beta in *. unfold letter. tauto.
    + constructor; [by left|done].
  - intros ((c & r & -> & Hc & _) & _ & H). apply Forall_cons in H as [H1 H2].
    exists c, r. split; [done|]. split; [|done].
    destruct H1 as [|H1]; [done|].
    unfold letter, lower_letter, upper_letter, digit in *. lia.
Qed.

(** ** Field errors *)

(** No error: every tag passes. *)
Lemma check_field_nil f tags : check_field f tags = [] <-> forallb snd tags = true.
Proof.
  unfold check_field, first_failure. induction tags as [|[[t p] [|]] tags IH]; [done| |].
  - rewrite filter_cons_False by done. exact IH.
  - rewrite filter_cons_True by done. done.
Qed.

Definition create_binding (b : create_body) : bool :=
  (tag_required_string (cb_name b) && tag_lowercase (cb_name b) && tag_alphanum (cb_name b)) &&
  (tag_required_string (cb_type b) && tag_oneof_like (cb_type b)) &&
  tag_omitempty_min1 (cb_max b) &&
  (tag_required_float (cb_dislike b) && tag_min0_max1 (cb_dislike b)).
Definition update_binding (b : update_body) : bool :=
  (tag_required_string (ub_name b) && tag_lowercase (ub_name b) && tag_alphanum (ub_name b)) &&
  tag_omitempty_min1 (ub_max b) &&
  (tag_required_float (ub_dislike b) && tag_min0_max1 (ub_dislike b)).

Lemma app_nil_iff {A} (l1 l2 : list A) : l1 ++ l2 = [] <-> l1 = [] /\ l2 = [].
Proof. split; [apply app_eq_nil|by intros [-> ->]]. Qed.

Lemma create_errors_nil b : create_errors b = [] <-> create_binding b = true.
Proof.
  unfold create_errors, create_binding, tag_min0_max1. rewrite !app_nil_iff, !check_field_nil.
  cbn [forallb snd name_tags type_tags max_tags factor_tags]. rewrite !andb_true_r, !andb_true_iff. tauto.
Qed.
Lemma update_errors_nil b : update_errors b = [] <-> update_binding b = true.
Proof.
  unfold update_errors, update_binding, tag_min0_max1. rewrite !app_nil_iff, !check_field_nil.
  cbn [forallb snd name_tags max_tags factor_tags]. rewrite !andb_true_r, !andb_true_iff. tauto.
Qed.

(** What makes the handler call CreateNamespace. *)
Lemma binding_and_domain b :
  0 <= cb_max b ->
  (create_binding b = true /\ (exists d, create_to_domain b = Ret d)) <->
  (api_name_ok (cb_name b) /\ cb_type b = ascii_bytes "like" /\
   factor_in_range (cb_dislike b) /\ tag_required_float (cb_dislike b) = true).
Proof.
  intros Hmax. unfold create_binding. rewrite !andb_true_iff.
  rewrite min0_max1.
  assert (M : tag_omitempty_min1 (cb_max b) = true).
  { unfold tag_omitempty_min1. destruct (Z.eqb_spec (cb_max b) 0); [done|].
    apply Z.leb_le. lia. }
  assert (T : tag_oneof_like (cb_type b) = true <-> cb_type b = ascii_bytes "like").
  { unfold tag_oneof_like. apply bool_decide_eq_true. }
  rewrite api_name_split. pose proof (alphanum_lower (cb_name b)) as A.
  rewrite !andb_true_iff in A. rewrite T, M. split.
  - intros [[[[HA HT] _] HF] (d & D)]. split; [|tauto].
    split; [|by apply A].
    unfold create_to_domain in D. destruct (parse_namespace_name (cb_name b)) eqn:P; try done.
    by apply parse_name_ret in P as [_ P].
  - intros [[HN HA] [HT [HF HR]]]. split.
    + split; [split; [split; [by apply A|]|done]|done]. split; [|done]. by rewrite HT.
    + unfold create_to_domain. rewrite (parse_name_ok _ HN). unfold parse_namespace_type.
      rewrite bool_decide_true by done. by eexists.
Qed.

Lemma to_domain_eq b d :
  create_to_domain b = Ret d ->
  d = CreateRequest (cb_name b) type_like (cb_max b) (cb_dislike b) /\ cb_type b = type_like.
Proof.
  unfold create_to_domain. destruct (parse_namespace_name (cb_name b)) eqn:P; try done.
  apply parse_name_ret in P as [-> _].
  unfold parse_namespace_type. case_bool_decide as T; [|done]. intros [= <-]. by rewrite T.
Qed.
