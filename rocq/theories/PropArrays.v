(** Properties C01-C06: internal/helpers/arrays.go. *)
From Verif Require Import Base Arrays Spec ArraysFacts.

(** * C01 *)
Theorem C01_binary_index_of_exact :
  forall (T : Type) (eqb ltb : T -> T -> bool), total_order eqb ltb ->
  forall (h : list T) (x : T), ascending_by ltb h ->
  exists z, binary_index_of eqb ltb h x = Ret z /\
    ((exists i : nat, z = Z.of_nat i /\ h !! i = Some x) \/
     (z = -1 /\ forall i : nat, h !! i <> Some x)).
Proof. exact @binary_index_of_spec. Qed.
Print Assumptions C01_binary_index_of_exact.

Example C01_case : total_order Z.eqb Z.ltb /\ ascending_by Z.ltb [3; 7; 7; 20] /\
  binary_index_of Z.eqb Z.ltb [3; 7; 7; 20] 7 = Ret 1 /\
  binary_index_of Z.eqb Z.ltb [3; 7; 7; 20] 8 = Ret (-1).
Proof.
  split; [exact Z_total_order|]. split; [|done].
  apply ascending_by_Z. intros [|[|[|[|i]]]] [|[|[|[|j]]]] x y Hij Hx Hy; cbn in *; simplify_eq; lia.
Qed.

(** * C02 *)
Theorem C02_closest_is_nearest :
  forall (t : inttype) (h : list Z) (x : Z),
  unsigned t = true -> Forall (in_type t) h -> in_type t x -> ascending h ->
  (h = [] -> binary_index_of_closest t h x = Ret (-1)) /\
  (h <> [] -> exists (i : nat) (y : Z),
     binary_index_of_closest t h x = Ret (Z.of_nat i) /\ h !! i = Some y /\
     forall (j : nat) (z : Z), h !! j = Some z -> Z.abs (y - x) <= Z.abs (z - x)).
Proof. exact closest_unsigned. Qed.
Print Assumptions C02_closest_is_nearest.

Example C02_case : ascending [0; 10; 255] /\ Forall (in_type U8) [0; 10; 255] /\
  binary_index_of_closest U8 [0; 10; 255] 200 = Ret 2.
Proof.
  split; [|split; [|done]].
  - intros [|[|[|i]]] [|[|[|j]]] x y Hij Hx Hy; cbn in *; simplify_eq; lia.
  - repeat constructor; done.
Qed.

(** For signed element types the contract does not hold: the deviation wraps. *)
Theorem C02_closest_signed_refuted :
  exists h x, Forall (in_type I8) h /\ in_type I8 x /\ ascending h /\
    exists i z w, binary_index_of_closest I8 h x = Ret (Z.of_nat i) /\
      h !! i = Some z /\ w ∈ h /\ Z.abs (w - x) < Z.abs (z - x).
Proof. exact closest_signed_wrong. Qed.
Print Assumptions C02_closest_signed_refuted.

(** * C03 *)
Theorem C03_put_saving_order :
  forall (t : inttype) (h : list Z) (v : Z),
  unsigned t = true -> Forall (in_type t) h -> in_type t v -> strictly_ascending h ->
  exists r, put_saving_order t h v = Ret r /\ strictly_ascending r /\
    (forall y, y ∈ r <-> y ∈ h \/ y = v) /\ (v ∈ h -> r = h).
Proof. exact put_saving_order_unsigned. Qed.
Print Assumptions C03_put_saving_order.

Example C03_case : put_saving_order U64 [1; 5; 9] 7 = Ret [1; 5; 7; 9] /\
  put_saving_order U64 [1; 5; 9] 5 = Ret [1; 5; 9] /\ strictly_ascending [1; 5; 9].
Proof.
  split; [done|]. split; [done|].
  intros [|[|[|i]]] [|[|[|j]]] x y Hij Hx Hy; cbn in *; simplify_eq; lia.
Qed.

(** * C04
    Full claim: for every ascending [h] the result is ascending.  It is false,
    already for slices the function itself built from the empty slice. *)
Theorem C04_insert_saving_order_refuted :
  exists v1 v2 v3 h1 h2 h3,
    insert_saving_order U64 [] v1 = Ret h1 /\
    insert_saving_order U64 h1 v2 = Ret h2 /\ ascending h2 /\
    insert_saving_order U64 h2 v3 = Ret h3 /\ ~ ascending h3.
Proof. exact insert_saving_order_breaks_order. Qed.
Print Assumptions C04_insert_saving_order_refuted.

(** What holds: for every ascending slice exactly the value is added somewhere
    and nothing else moves; the result is ascending if the slice has no
    duplicates or already holds the value.  Missing: order with duplicates. *)
Theorem C04_insert_saving_order_partial :
  forall (t : inttype) (h : list Z) (v : Z),
  unsigned t = true -> Forall (in_type t) h -> in_type t v -> ascending h ->
  exists l1 l2, h = l1 ++ l2 /\ insert_saving_order t h v = Ret (l1 ++ v :: l2) /\
    (v ∈ h \/ strictly_ascending h -> ascending (l1 ++ v :: l2)).
Proof. exact insert_saving_order_unsigned. Qed.
Print Assumptions C04_insert_saving_order_partial.

Example C04_case : insert_saving_order U64 [1; 5; 9] 7 = Ret [1; 5; 7; 9] /\
  insert_saving_order U64 [1; 5; 5; 9] 5 = Ret [1; 5; 5; 5; 9].
Proof. done. Qed.

(** * C05 *)
Theorem C05_remove_one :
  forall (T : Type) (h : list T) (i : Z),
  (forall l1 x l2, h = l1 ++ x :: l2 -> i = Z.of_nat (length l1) ->
     remove_saving_order h i = Ret (l1 ++ l2) /\
     exists r, remove_at h i = Ret r /\ Permutation r (l1 ++ l2)) /\
  (i < 0 \/ Z.of_nat (length h) <= i ->
     remove_saving_order h i = Panic /\ remove_at h i = Panic).
Proof. exact @remove_both. Qed.
Print Assumptions C05_remove_one.

Example C05_case : remove_saving_order [4; 5; 6] 1 = Ret [4; 6] /\
  remove_at [4; 5; 6] 0 = Ret [6; 5] /\ remove_at [4; 5; 6] 3 = Panic.
Proof. done. Qed.

(** * C06
    Full claim: for every element type.  False for the signed types. *)
Theorem C06_deviation_refuted :
  forall t, unsigned t = false ->
  exists a b, in_type t a /\ in_type t b /\ deviation t a b <> Z.abs (a - b).
Proof. exact deviation_signed_wrong. Qed.
Print Assumptions C06_deviation_refuted.

(** It holds exactly when the difference fits the type, so always for unsigned. *)
Theorem C06_deviation_partial :
  forall t a b, in_type t a -> in_type t b ->
  (unsigned t = true -> deviation t a b = Z.abs (a - b)) /\
  (deviation t a b = Z.abs (a - b) <-> Z.abs (a - b) <= tmax t).
Proof. exact deviation_exact. Qed.
Print Assumptions C06_deviation_partial.

Example C06_case : deviation U8 3 250 = 247 /\ deviation I8 (-128) 127 = -1.
Proof. done. Qed.
