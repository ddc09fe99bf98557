(** Properties C07-C08: internal/domain/profile.go, the verdicts. *)
From Verif Require Import Base Profile Spec ProfileFacts.

(** * C07
    Any history of calls on a new profile returns normally, and QualifyItem then
    answers the verdict the history implies. *)
Theorem C07_last_verdict :
  forall (u : Z) (ops : list profile_op),
  Forall (fun o => is_u64 (op_item o)) ops ->
  exists p, run_profile (new_profile u) ops = Ret p /\ p_user p = u /\
    forall x, qualify_item p x = Ret (verdict_code (verdict_after (map as_request ops) x)).
Proof. exact run_profile_verdicts. Qed.
Print Assumptions C07_last_verdict.

Example C07_case :
  let ops := [OLike 7; ODislike 9; OLike 9; OUndislike 9; ODislike 7; OUnlike 7] in
  Forall (fun o => is_u64 (op_item o)) ops /\
  verdict_after (map as_request ops) 7 = Disliked /\
  verdict_after (map as_request ops) 9 = Liked /\
  run_profile (new_profile 1) ops = Ret (Profile 1 [9] [7]).
Proof. split; [repeat constructor; done|done]. Qed.

(** * C08 *)
Theorem C08_sorted_disjoint :
  forall (u : Z) (ops : list profile_op) p,
  Forall (fun o => is_u64 (op_item o)) ops ->
  run_profile (new_profile u) ops = Ret p ->
  strictly_ascending (p_likes p) /\ strictly_ascending (p_dislikes p) /\
  (forall x, x ∈ p_likes p -> x ∉ p_dislikes p) /\
  (forall x, x ∈ p_likes p <-> verdict_after (map as_request ops) x = Liked) /\
  (forall x, x ∈ p_dislikes p <-> verdict_after (map as_request ops) x = Disliked).
Proof. exact run_profile_sorted_disjoint. Qed.
Print Assumptions C08_sorted_disjoint.

Example C08_case :
  run_profile (new_profile 1) [OLike 7; OLike 3; ODislike 9; OLike 5; ORemoveItem 3]
  = Ret (Profile 1 [5; 7] [9]).
Proof. done. Qed.
