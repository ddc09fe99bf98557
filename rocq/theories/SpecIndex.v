(** Specification vocabulary for the index storage, independent of the model. *)
From Verif Require Import Base SpecFile.

(** "RECIDX" *)
Definition index_magic : list byte := [82; 69; 67; 73; 68; 88].

(** An index file: magic, version 1, lock byte, 32-bit count of the pairs, the pairs. *)
Definition index_pair (x : Z * Z) : list byte := be64 (fst x) ++ be64 (snd x).
Definition index_image (locked : Z) (l : list (Z * Z)) : list byte :=
  index_magic ++ [1; locked] ++ be32 (Z.of_nat (length l)) ++ concat (map index_pair l).

(** What was done to an index, in order. *)
Inductive ievent := IvPut (id index : Z) | IvRemove (id : Z).

(** The value of an id: that of the last Put not followed by a Remove. *)
Fixpoint index_value (h : list ievent) (id : Z) (before : option Z) : option Z :=
  match h with
  | [] => before
  | IvPut k v :: h => index_value h id (if k =? id then Some v else before)
  | IvRemove k :: h => index_value h id (if k =? id then None else before)
  end.

Definition iv_typed (e : ievent) : Prop :=
  match e with IvPut k v => is_u64 k /\ is_u64 v | IvRemove k => is_u64 k end.
