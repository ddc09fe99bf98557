(** Property C93: searches look at few elements. *)
From Verif Require Import Base Arrays ArraysCost ArraysCostFacts.

(** * C93
    In a slice of at most 2^k + 1 elements BinaryIndexOf and BinaryIndexOfClosest look
    at no more than k + 3 of them.  The slice need not be sorted.  What they look at is
    all they depend on: any slice of the same length with the same elements there gets
    the same answer ([decided_by], ArraysCostFacts.v). *)
Theorem C93_binary_index_of_cost :
  forall (T : Type) (eqb ltb : T -> T -> bool) (h : list T) (x : T) (k : nat),
  (length h <= 2 ^ k + 1)%nat ->
  fst (binary_index_of_cost eqb ltb h x) = binary_index_of eqb ltb h x /\
  (snd (binary_index_of_cost eqb ltb h x) <= k + 3)%nat /\
  exists ps, length ps = snd (binary_index_of_cost eqb ltb h x) /\
    decided_by (fun h => binary_index_of eqb ltb h x) h ps.
Proof.
  intros T eqb ltb h x k Hk. split; [apply binary_index_of_erases|]. split; [|apply binary_index_of_looks].
  unfold binary_index_of_cost. destruct h as [|y h]; [cbn; lia|].
  destruct (_ !! _) as [z|]; [|cbn; lia]. destruct (_ !! _) as [w|]; [|cbn; lia].
  destruct (eqb z x); [cbn; lia|]. destruct (eqb w x); [cbn; lia|].
  eapply Nat.le_trans; [apply (bin_loop_bound _ _ _ _ k)|]; lia.
Qed.
Print Assumptions C93_binary_index_of_cost.

Theorem C93_closest_cost :
  forall (t : inttype) (h : list Z) (x : Z) (k : nat),
  (length h <= 2 ^ k + 1)%nat ->
  fst (binary_index_of_closest_cost t h x) = binary_index_of_closest t h x /\
  (snd (binary_index_of_closest_cost t h x) <= k + 3)%nat /\
  exists ps, length ps = snd (binary_index_of_closest_cost t h x) /\
    decided_by (fun h => binary_index_of_closest t h x) h ps.
Proof.
  intros t h x k Hk. split; [apply closest_erases|]. split; [|apply closest_looks].
  unfold binary_index_of_closest_cost. destruct h as [|y h]; [cbn; lia|].
  destruct (_ !! _) as [z|]; [|cbn; lia]. destruct (_ !! _) as [w|]; [|cbn; lia].
  destruct (_ <? _); (destruct (_ =? 0); [cbn; lia|]);
    (eapply Nat.le_trans; [apply (closest_loop_bound _ _ _ k)|]; lia).
Qed.
Print Assumptions C93_closest_cost.

(** 1025 elements; the item before the last is found with 12 looks, the bound is 13. *)
Example C93_case :
  let h := map (fun i => 10 * Z.of_nat i) (seq 0 1025) in
  length h = (2 ^ 10 + 1)%nat /\
  binary_index_of_cost Z.eqb Z.ltb h 10230 = (Ret 1023, 12%nat) /\
  binary_index_of_cost Z.eqb Z.ltb h 7 = (Ret (-1), 13%nat) /\
  binary_index_of_closest_cost U64 h 7 = (Ret 1, 13%nat).
Proof. vm_compute. done. Qed.
