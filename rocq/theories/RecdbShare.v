(** Several iterators on one open file (not code of the repository: what callers may do). *)
From Verif Require Import Base GoIO Profile Recdb SpecRecdb RecdbSession.

(** [n] iterators made one after the other by NewIterator (iterator.go:43-63) for the file
    [f]; they hold the same file, so what one does to its position the others see. *)
Fixpoint r_open_all (n : nat) (f : file) : file * outcome (list iter) :=
  match n with
  | O => (f, Ret [])
  | S n =>
    match r_new_iterator f with
    | (f, Ret it) =>
      match r_open_all n f with
      | (f, Ret its) => (f, Ret (it :: its))
      | (f, o) => (f, o)
      end
    | (f, Err e) => (f, Err e)
    | (f, Panic) => (f, Panic)
    | (f, Hang) => (f, Hang)
    end
  end.

(** The iterator when the file is [f]. *)
Definition it_on (f : file) (it : iter) : iter :=
  Iter (it_header it) (BReader f (br_buf (it_reader it)) (br_err (it_reader it))) (it_index it) (it_entry it).

(** Iterator [i] is called with [ops]. *)
Definition r_turn (rsz : nat) (i : nat) (ops : list itop) (st : file * list iter) : (file * list iter) * list itans :=
  match st.2 !! i with
  | None => (st, [])
  | Some it =>
    let '(it', answers) := r_ops rsz ops (it_on st.1 it) in ((it_file it', <[i := it']> st.2), answers)
  end.

Fixpoint r_turns (rsz : nat) (turns : list (nat * list itop)) (st : file * list iter) : list (list itans) :=
  match turns with
  | [] => []
  | (i, ops) :: turns => let '(st', answers) := r_turn rsz i ops st in answers :: r_turns rsz turns st'
  end.
