(** The comparison of internal/domain/profile.go:81-105 once more, with a counter of the
    elements looked at: every item of the first slice once, and what each search in the
    second one looks at (ArraysCost.v).  PropSimilarityCost.v proves that leaving the
    counter out gives the functions of Similarity.v. *)
From Flocq Require Import Core.Core IEEE754.BinarySingleNaN.
From Verif Require Import Base Arrays ArraysCost Profile Similarity.

(** A result with the number of elements looked at; a run that ends early has looked at
    what it looked at until then. *)
Definition cbind {A B} (m : outcome A * nat) (k : A -> outcome B * nat) : outcome B * nat :=
  match fst m with
  | Ret x => (fst (k x), snd m + snd (k x))%nat
  | Err e => (Err e, snd m)
  | Panic => (Panic, snd m)
  | Hang => (Hang, snd m)
  end.

(** profile.go:82-87, the counting loop; one look for the item itself. *)
Fixpoint count_common_cost (itemsA itemsB : list Z) : outcome Z * nat :=
  match itemsA with
  | [] => (Ret 0, O)
  | item :: rest =>
    cbind (Ret tt, 1%nat) (fun _ =>
    cbind (binary_index_of_cost Z.eqb Z.ltb itemsB item) (fun i =>
    cbind (count_common_cost rest itemsB) (fun n =>
    (Ret (if 0 <=? i then n + 1 else n), O))))
  end.

(** profile.go:81-93 computeSimilarityBetweenSets *)
Definition similarity_between_sets_cost (itemsA itemsB : list Z) : outcome (f32 * Z) * nat :=
  cbind (count_common_cost itemsA itemsB) (fun conjunction =>
  let disjunction := Z.of_nat (length itemsA) + Z.of_nat (length itemsB) - conjunction in
  if disjunction =? 0 then (Ret (B754_zero false, 0), O)
  else (Ret (f32_div (f32_of_int conjunction) (f32_of_int disjunction), disjunction), O)).

(** profile.go:99-105 ComputeSimilarity *)
Definition compute_similarity_cost (fu : fusion) (oob : f32 -> Z)
    (p1 p2 : profile) (dislikeFactor : f32) : outcome f32 * nat :=
  cbind (similarity_between_sets_cost (p_likes p1) (p_likes p2)) (fun '(likesSim, likesWeight) =>
  cbind (similarity_between_sets_cost (p_dislikes p1) (p_dislikes p2)) (fun '(dislikesSim, dw) =>
  let dislikesWeight := f32_to_int oob (f32_mult (f32_of_int dw) dislikeFactor) in
  (Ret (f32_mult (f32_of_int 100)
    (f32_div
      (weighted_sum fu likesSim (f32_of_int likesWeight) dislikesSim (f32_of_int dislikesWeight))
      (f32_plus (f32_of_int likesWeight) (f32_of_int dislikesWeight)))), O))).
