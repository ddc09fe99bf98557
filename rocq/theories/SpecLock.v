(** What the lock flag operations of a file format are to do: [off] is the offset of
    the lock byte in the format. *)
From Verif Require Import Base GoIO.

(** An open file without I/O errors.  The in-memory file cannot point past its end. *)
Definition usable (f : file) : Prop :=
  f_closed f = false /\ f_env f = [] /\
  (f_kind f = KOs \/ (f_pos f <= length (f_data f))%nat).

Definition lock_flag_ok (off : nat) (write_locked : bool -> io file unit) (is_locked : io file bool)
  : Prop :=
  (forall f b, usable f -> (off <= length (f_data f))%nat ->
   exists f', write_locked b f = (f', Ret tt) /\ usable f' /\
     f_pos f' = f_pos f /\
     f_data f' !! off = Some (if b then 1 else 0) /\
     (forall i, i <> off -> f_data f' !! i = f_data f !! i) /\
     is_locked f' = (f', Ret b)) /\
  (forall f x, usable f -> f_data f !! off = Some x ->
     is_locked f = (f, Ret (negb (x =? 0)))).
