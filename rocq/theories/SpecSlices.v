(** Slices in memory: validity and separation. *)
From Verif Require Import Base SliceHeap.

(** The slice lies inside its backing array (a slice without room needs none). *)
Definition owns {T} (m : mem T) (s : slice) : Prop :=
  (sl_len s <= sl_cap s)%nat /\
  (sl_cap s = 0%nat \/
   exists a, m !! sl_arr s = Some a /\ (sl_off s + sl_cap s <= length a)%nat).

(** The slices do not share a backing array. *)
Definition separate (s t : slice) : Prop :=
  sl_cap s = 0%nat \/ sl_cap t = 0%nat \/ sl_arr s <> sl_arr t.

(** ** Histories of calls on several profiles *)

(** The users for whom profiles were made, in order. *)
Fixpoint made (cs : list pcall) : list Z :=
  match cs with
  | [] => []
  | PNew u :: cs' => u :: made cs'
  | POp _ _ :: cs' => made cs'
  end.

(** The calls on profile [k]. *)
Fixpoint calls_on (k : nat) (cs : list pcall) : list Profile.profile_op :=
  match cs with
  | [] => []
  | PNew _ :: cs' => calls_on k cs'
  | POp j o :: cs' => if (j =? k)%nat then o :: calls_on k cs' else calls_on k cs'
  end.

(** Every call is on a profile made before ([n]: how many there are), and about a
    64-bit item. *)
Fixpoint valid_from (n : nat) (cs : list pcall) : Prop :=
  match cs with
  | [] => True
  | PNew _ :: cs' => valid_from (S n) cs'
  | POp k o :: cs' => (k < n)%nat /\ is_u64 (Profile.op_item o) /\ valid_from n cs'
  end.
