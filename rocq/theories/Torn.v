(** Variables of several machine words that one goroutine reads while others store to
    them: the name of a namespace (a string: address and length of its bytes;
    likenamespace.go:17, read at line 62, stored at line 72) and the list of namespaces
    (a slice: address of its array, length, capacity; namespaceservice.go:29, read at
    line 117, stored at line 150).  There are no locks, and words are what a machine
    reads and stores at once.

    The order in which the words are read, and the orders in which they are stored, are
    left open. *)
From Verif Require Import Base SliceHeap.

(** [t_words]: the variable; [t_writers]: the values being stored, with the words that
    are still to be stored, in this order; [t_todo]: the words still to be read, in this
    order; [t_got]: the words read. *)
Record tstate := TState {
  t_words : list nat;
  t_writers : list (list nat * list nat);
  t_todo : list nat;
  t_got : list (nat * nat)
}.

Inductive tstep : tstate -> tstate -> Prop :=
| ts_store ws wr td got i v w rest x :
    wr !! i = Some (v, w :: rest) -> v !! w = Some x ->
    tstep (TState ws wr td got) (TState (<[w := x]> ws) (<[i := (v, rest)]> wr) td got)
| ts_load ws wr w td got x :
    ws !! w = Some x ->
    tstep (TState ws wr (w :: td) got) (TState ws wr td (got ++ [(w, x)])).

Inductive tsteps : tstate -> tstate -> Prop :=
| tsteps_refl s : tsteps s s
| tsteps_step s1 s2 s3 : tstep s1 s2 -> tsteps s2 s3 -> tsteps s1 s3.

(** The variable has the value [v]; the values [vs] are about to be stored, each in its
    own order, and the reading, in the order [ro], is about to begin. *)
Definition t_start (v : list nat) (vs : list (list nat * list nat)) (ro : list nat) : tstate := TState v vs ro [].

(** The reading is over; word [w] is [x]. *)
Definition t_read (s : tstate) (w x : nat) : Prop := t_todo s = [] /\ (w, x) ∈ t_got s.

(** ** Strings *)

(** The bytes of the string with this address and length, in the memory [m]; [None]:
    some are not in memory. *)
Definition bytes_at (m : list byte) (address len : nat) : option (list byte) :=
  if (address + len <=? length m)%nat then Some (take len (drop address m)) else None.

(** ** Slices of namespaces *)

(** The elements of the slice with this array and length ([None]: some are not in the
    array).  The array 0 is that of a nil slice or of make([]T, 0). *)
Definition elements_at (m : mem Z) (array len : nat) : option (list Z) :=
  if (len <=? length (arr m array))%nat then Some (take len (arr m array)) else None.

(** The words of a slice that begins where its array begins. *)
Definition header_words (h : slice) : list nat := [sl_arr h; sl_len h; sl_cap h].
