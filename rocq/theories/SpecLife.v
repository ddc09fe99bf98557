(** What the whole life of a delta file - any number of processes, some of which died -
    means for the operations recorded in it.  Independent of the model. *)
From Verif Require Import Base SpecDelta.

(** An operation, a completed flush, or the death of the process. *)
Inductive levent := LDo (e : devent) | LCrash.

(** The event at [n] was followed by a completed flush before any crash. *)
Definition settled (H : list levent) (n : nat) : Prop :=
  exists m, (n < m)%nat /\ H !! m = Some (LDo EvFlush) /\
    forall k, (n < k < m)%nat -> H !! k <> Some LCrash.

(** [v] is an admissible answer for the pair: the operation of some Add such that no
    later Add on the pair was settled, or nothing if no Add on it was settled. *)
Definition admissible (H : list levent) (user item : Z) (v : option Z) : Prop :=
  match v with
  | Some op => exists n, H !! n = Some (LDo (EvAdd op user item)) /\
      forall m op', (n < m)%nat -> H !! m = Some (LDo (EvAdd op' user item)) -> ~ settled H m
  | None => forall m op', H !! m = Some (LDo (EvAdd op' user item)) -> ~ settled H m
  end.

(** No operation of the user is waiting for a flush. *)
Definition nothing_pending (H : list levent) (user : Z) : Prop :=
  forall n op item, H !! n = Some (LDo (EvAdd op user item)) ->
  exists m, (n < m)%nat /\ (H !! m = Some (LDo EvFlush) \/ H !! m = Some LCrash).
