(** Sequences of iterator calls (not code of the repository: what a caller may do). *)
From Verif Require Import Base GoIO Profile Recdb SpecRecdb.

(** A stored entry as the Go value. *)
Definition entry_of (s : stored) : rentry :=
  REntry (st_cap s) (st_deleted s) (DProfile (Profile (st_user s) (st_likes s) (st_dislikes s))).

Definition next_answer (o : outcome rentry) : itans :=
  match o with
  | Ret (REntry c d (DProfile p)) => AEntry c d (p_user p) (p_likes p) (p_dislikes p)
  | _ => AFail
  end.

Definition r_op (rsz : nat) (op : itop) (it : iter) : iter * itans :=
  match op with
  | OpHasNext => (it, AHas (r_has_next it))
  | OpNext => let '(it', o) := r_next rsz it in (it', next_answer o)
  | OpRewind => let '(it', o) := r_rewind it in
                (it', match o with Ret _ => ADone | _ => AFail end)
  end.

Fixpoint r_ops (rsz : nat) (ops : list itop) (it : iter) : iter * list itans :=
  match ops with
  | [] => (it, [])
  | op :: ops =>
    let '(it', a) := r_op rsz op it in
    let '(it'', l) := r_ops rsz ops it' in (it'', a :: l)
  end.
