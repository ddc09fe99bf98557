(** Specification vocabulary used in the property statements.  Nothing here
    refers to the model of the code. *)
From Verif Require Import Base.

(** ** Ordered slices *)

(** [lt] is a strict total order given as a boolean, [eqb] decides equality. *)
Record total_order {T} (eqb ltb : T -> T -> bool) : Prop := {
  to_eqb : forall x y, eqb x y = true <-> x = y;
  to_irrefl : forall x, ltb x x = false;
  to_trans : forall x y z, ltb x y = true -> ltb y z = true -> ltb x z = true;
  to_total : forall x y, x = y \/ ltb x y = true \/ ltb y x = true
}.

(** No later element is smaller than an earlier one. *)
Definition ascending_by {T} (ltb : T -> T -> bool) (l : list T) : Prop :=
  forall i j x y, (i < j)%nat -> l !! i = Some x -> l !! j = Some y -> ltb y x = false.

Definition ascending (l : list Z) : Prop :=
  forall i j x y, (i < j)%nat -> l !! i = Some x -> l !! j = Some y -> x <= y.

Definition strictly_ascending (l : list Z) : Prop :=
  forall i j x y, (i < j)%nat -> l !! i = Some x -> l !! j = Some y -> x < y.

(** ** Verdicts on items *)

Inductive verdict := Liked | Disliked | Unknown.
Inductive request := RqLike | RqUnlike | RqDislike | RqUndislike | RqRemove.

(** What a request on an item does to the verdict on that item. *)
Definition judge (v : verdict) (r : request) : verdict :=
  match r, v with
  | RqLike, _ => Liked
  | RqDislike, _ => Disliked
  | RqRemove, _ => Unknown
  | RqUnlike, Liked => Unknown
  | RqUnlike, _ => v
  | RqUndislike, Disliked => Unknown
  | RqUndislike, _ => v
  end.

(** Verdict on [x] after a history of (request, item) pairs. *)
Definition verdict_after (hist : list (request * Z)) (x : Z) : verdict :=
  fold_left (fun v rq => if bool_decide (rq.2 = x) then judge v rq.1 else v) hist Unknown.

Definition verdict_code (v : verdict) : Z :=
  match v with Liked => 1 | Disliked => -1 | Unknown => 0 end.

(** ** Sets of items given as lists *)

Definition common (A B : list Z) : nat := size ((list_to_set A ∩ list_to_set B) : gset Z).
Definition union_size (A B : list Z) : nat := size ((list_to_set A ∪ list_to_set B) : gset Z).
