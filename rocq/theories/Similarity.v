(** Model of the similarity functions of internal/domain/profile.go, on IEEE 754
    binary32 as formalised by Flocq (one NaN; Go's 0/0 always gives the same NaN
    on a given machine).  The Go specification lets a compiler fuse [x*y + z];
    [fusion] covers the three possible compilations of the weighted sum.  The
    conversion of a float32 that is not a value of [int] is implementation
    defined in Go; it is the argument [oob]. *)
From Flocq Require Import Core.Core IEEE754.BinarySingleNaN.
From Verif Require Import Base Arrays Profile.

#[global] Instance prec24 : Prec_gt_0 24 := eq_refl.
#[global] Instance prec24_emax : Prec_lt_emax 24 128 := eq_refl.

Definition f32 : Set := binary_float 24 128.
Definition f32_mult : f32 -> f32 -> f32 := Bmult mode_NE.
Definition f32_plus : f32 -> f32 -> f32 := Bplus mode_NE.
Definition f32_div : f32 -> f32 -> f32 := Bdiv mode_NE.
Definition f32_fma : f32 -> f32 -> f32 -> f32 := Bfma mode_NE.

(** float32(n) for an int, and untyped constants. *)
Definition f32_of_int (n : Z) : f32 := binary_normalize 24 128 _ _ mode_NE n 0 false.

(** int(x) for a float32. *)
Definition f32_to_int (oob : f32 -> Z) (x : f32) : Z :=
  if is_finite x && (tmin I64 <=? Btrunc x) && (Btrunc x <=? tmax I64)
  then Btrunc x else oob x.

(** profile.go:82-87, the counting loop. *)
Fixpoint count_common (itemsA itemsB : list Z) : outcome Z :=
  match itemsA with
  | [] => Ret 0
  | item :: rest =>
    obind (index_u64 itemsB item) (fun i =>
    obind (count_common rest itemsB) (fun n =>
    Ret (if 0 <=? i then n + 1 else n)))
  end.

(** profile.go:81-93 computeSimilarityBetweenSets *)
Definition similarity_between_sets (itemsA itemsB : list Z) : outcome (f32 * Z) :=
  obind (count_common itemsA itemsB) (fun conjunction =>
  let disjunction := Z.of_nat (length itemsA) + Z.of_nat (length itemsB) - conjunction in
  if disjunction =? 0 then Ret (B754_zero false, 0)
  else Ret (f32_div (f32_of_int conjunction) (f32_of_int disjunction), disjunction)).

Inductive fusion := NoFuse | FuseFirst | FuseSecond.

(** x1*y1 + x2*y2 *)
Definition weighted_sum (fu : fusion) (x1 y1 x2 y2 : f32) : f32 :=
  match fu with
  | NoFuse => f32_plus (f32_mult x1 y1) (f32_mult x2 y2)
  | FuseFirst => f32_fma x1 y1 (f32_mult x2 y2)
  | FuseSecond => f32_fma x2 y2 (f32_mult x1 y1)
  end.

(** profile.go:99-105 ComputeSimilarity *)
Definition compute_similarity (fu : fusion) (oob : f32 -> Z)
    (p1 p2 : profile) (dislikeFactor : f32) : outcome f32 :=
  obind (similarity_between_sets (p_likes p1) (p_likes p2)) (fun '(likesSim, likesWeight) =>
  obind (similarity_between_sets (p_dislikes p1) (p_dislikes p2)) (fun '(dislikesSim, dw) =>
  let dislikesWeight := f32_to_int oob (f32_mult (f32_of_int dw) dislikeFactor) in
  Ret (f32_mult (f32_of_int 100)
    (f32_div
      (weighted_sum fu likesSim (f32_of_int likesWeight) dislikesSim (f32_of_int dislikesWeight))
      (f32_plus (f32_of_int likesWeight) (f32_of_int dislikesWeight)))))).
