(** Property C129: comparing two users looks at few of their items. *)
From Flocq Require Import Core.Core IEEE754.BinarySingleNaN.
From Verif Require Import Base Arrays ArraysCost ArraysCostFacts PropArraysCost Profile ProfileFacts Similarity SimilarityFacts SimilarityCost.
Open Scope Z_scope.

Lemma cbind_fst {A B} (m : outcome A * nat) (k : A -> outcome B * nat) :
  fst (cbind m k) = obind (fst m) (fun x => fst (k x)).
Proof. unfold cbind. by destruct m as [[x|e| |] n]. Qed.

Lemma cbind_snd {A B} (m : outcome A * nat) (k : A -> outcome B * nat) c :
  (forall x, (snd (k x) <= c)%nat) -> (snd m <= snd (cbind m k) <= snd m + c)%nat.
Proof.
  intros H. unfold cbind. destruct m as [[x|e| |] n]; cbn [fst snd]; [|lia..]. specialize (H x). lia.
Qed.

Lemma obind_ext {A B} (m : outcome A) (k k' : A -> outcome B) : (forall x, k x = k' x) -> obind m k = obind m k'.
Proof. intros H. destruct m; cbn; auto. Qed.

Lemma count_erases A B : fst (count_common_cost A B) = count_common A B.
Proof.
  induction A as [|a A IH]; [done|]. cbn [count_common_cost count_common]. rewrite cbind_fst. cbn [fst obind].
  rewrite cbind_fst, binary_index_of_erases. apply obind_ext. intros i. rewrite cbind_fst, IH. done.
Qed.

Lemma count_bound A B k : (length B <= 2 ^ k + 1)%nat ->
  (snd (count_common_cost A B) <= length A * (k + 4))%nat.
Proof.
  intros Hk. induction A as [|a A IH]; [cbn; lia|]. cbn [count_common_cost length].
  destruct (C93_binary_index_of_cost Z Z.eqb Z.ltb B a k Hk) as (_ & Hc & _).
  eapply Nat.le_trans; [apply (cbind_snd _ _ ((k + 3) + length A * (k + 4))%nat)|cbn; lia].
  intros _. eapply Nat.le_trans; [apply (cbind_snd _ _ (length A * (k + 4))%nat)|cbn [snd]; lia].
  intros i. eapply Nat.le_trans; [apply (cbind_snd _ _ 0%nat); done|lia].
Qed.

Lemma count_floor A B n : count_common A B = Ret n -> (length A <= snd (count_common_cost A B))%nat.
Proof.
  revert n. induction A as [|a A IH]; intros n; [cbn; lia|]. cbn [count_common count_common_cost length].
  unfold index_u64. rewrite <- (binary_index_of_erases Z.eqb Z.ltb B a), <- count_erases.
  unfold cbind at 1. cbn [fst snd]. unfold cbind at 1. destruct (fst (binary_index_of_cost _ _ B a)) as [i|e| |]; try done. cbn [fst snd obind].
  rewrite count_erases. destruct (count_common A B) as [m|e| |] eqn:E; try done. intros _. specialize (IH m eq_refl).
  pose proof (cbind_snd (count_common_cost A B) (fun n => (Ret (if 0 <=? i then n + 1 else n), O)) 0%nat ltac:(done)). lia.
Qed.

Lemma sets_cost A B : snd (similarity_between_sets_cost A B) = snd (count_common_cost A B).
Proof.
  unfold similarity_between_sets_cost.
  match goal with |- snd (cbind _ ?k) = _ => pose proof (cbind_snd (count_common_cost A B) k 0%nat) as H end.
  rewrite Nat.add_0_r in H. apply Nat.le_antisymm; apply H; intros x; cbv zeta; by destruct (_ =? 0).
Qed.

Lemma sets_erases A B : fst (similarity_between_sets_cost A B) = similarity_between_sets A B.
Proof.
  unfold similarity_between_sets_cost, similarity_between_sets. rewrite cbind_fst, count_erases.
  apply obind_ext. intros n. by destruct (_ =? 0).
Qed.

(** * C129
    For each item of the first profile the comparison looks at that item and at no more
    than k + 3 of the second one, if neither of its lists has more than 2^k + 1 items.
    The profiles need not be sorted. *)
Theorem C129_compare_cost :
  forall fu oob p q f (k : nat),
  (length (p_likes q) <= 2 ^ k + 1)%nat -> (length (p_dislikes q) <= 2 ^ k + 1)%nat ->
  fst (compute_similarity_cost fu oob p q f) = compute_similarity fu oob p q f /\
  (snd (compute_similarity_cost fu oob p q f) <= (length (p_likes p) + length (p_dislikes p)) * (k + 4))%nat.
Proof.
  intros fu oob p q f k Hl Hd. split.
  - unfold compute_similarity_cost, compute_similarity. rewrite cbind_fst, sets_erases.
    apply obind_ext. intros [ls lw]. rewrite cbind_fst, sets_erases. apply obind_ext. by intros [ds dw].
  - unfold compute_similarity_cost.
    pose proof (count_bound (p_likes p) _ k Hl) as B1. pose proof (count_bound (p_dislikes p) _ k Hd) as B2.
    eapply Nat.le_trans; [apply (cbind_snd _ _ (length (p_dislikes p) * (k + 4))%nat)|rewrite sets_cost; lia].
    intros [ls lw]. eapply Nat.le_trans; [apply (cbind_snd _ _ 0%nat); by intros [ds dw]|]. rewrite sets_cost. lia.
Qed.
Print Assumptions C129_compare_cost.

(** The effort is that of the profile asked, however small the other one is: each of its
    items is looked at.  So it matters which of the two profiles is asked, although the
    answers are the same (C10). *)
Theorem C129_every_item_is_read :
  forall fu oob p q f, api_profile p -> api_profile q ->
  (length (p_likes p) + length (p_dislikes p) <= snd (compute_similarity_cost fu oob p q f))%nat.
Proof.
  intros fu oob p q f Hp Hq. apply api_profile_inv in Hp, Hq.
  assert (H1 : exists x, similarity_between_sets (p_likes p) (p_likes q) = Ret x).
  { unfold similarity_between_sets. rewrite count_common_spec by (first [apply Hp|apply Hq]). cbn [obind]. destruct (_ =? 0); eauto. }
  assert (F1 : (length (p_likes p) <= snd (count_common_cost (p_likes p) (p_likes q)))%nat)
    by (eapply count_floor, count_common_spec; [apply Hp|apply Hq]).
  assert (F2 : (length (p_dislikes p) <= snd (count_common_cost (p_dislikes p) (p_dislikes q)))%nat)
    by (eapply count_floor, count_common_spec; [apply Hp|apply Hq]).
  rewrite <- sets_cost in F1, F2. unfold compute_similarity_cost. unfold cbind at 1. rewrite sets_erases.
  destruct H1 as [[ls lw] ->]. cbn [snd].
  match goal with |- context [cbind (similarity_between_sets_cost (p_dislikes p) (p_dislikes q)) ?k] =>
    pose proof (cbind_snd (similarity_between_sets_cost (p_dislikes p) (p_dislikes q)) k 0%nat) as H end.
  assert (Hz := H ltac:(by intros [ds dw])). lia.
Qed.
Print Assumptions C129_every_item_is_read.

(** 3 likes and a dislike against 5 likes: 17 looks where the bound is 24; the other way
    round it is 22 where the bound is 25. *)
Example C129_case :
  let p := Profile 1 [10; 20; 30] [40] in
  let q := Profile 2 [5; 10; 15; 20; 25] [] in
  let looks p q := snd (compute_similarity_cost NoFuse (fun _ => 0) p q (f32_of_int 1)) in
  (length (p_likes q) <= 2 ^ 2 + 1)%nat /\ (length (p_likes p) <= 2 ^ 1 + 1)%nat /\
  looks p q = 17%nat /\ looks q p = 22%nat.
Proof. cbv zeta. split; [cbn; lia|]. split; [cbn; lia|]. split; lazy; reflexivity. Qed.
