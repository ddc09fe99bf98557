(** Specification vocabulary for recdb files, independent of the model. *)
From Verif Require Import Base SpecFile.

(** "RECDB", "LIKE    " *)
Definition recdb_magic : list byte := [82; 69; 67; 68; 66].
Definition like_type : list byte := [76; 73; 75; 69; 32; 32; 32; 32].

(** A stored entry: capacity, deletion mark, a profile, and the unused space. *)
Record stored := Stored {
  st_cap : Z; st_deleted : Z; st_user : Z; st_likes : list Z; st_dislikes : list Z;
  st_free : list byte }.

Definition counted (l : list Z) : list byte :=
  be32 (Z.of_nat (length l)) ++ concat (map be64 l).
Definition stored_data (s : stored) : list byte :=
  be64 (st_user s) ++ counted (st_likes s) ++ counted (st_dislikes s).
Definition stored_bytes (s : stored) : list byte :=
  be32 (st_cap s) ++ [st_deleted s] ++ stored_data s ++ st_free s.

(** The fields are in their ranges. *)
Definition stored_typed (s : stored) : Prop :=
  is_u32 (st_cap s) /\ is_byte (st_deleted s) /\ is_u64 (st_user s) /\
  Forall is_u64 (st_likes s) /\ Forall is_u64 (st_dislikes s) /\
  is_u32 (Z.of_nat (length (st_likes s))) /\ is_u32 (Z.of_nat (length (st_dislikes s))).
(** The capacity is the number of bytes occupied. *)
Definition stored_fits (s : stored) : Prop := Z.of_nat (length (stored_bytes s)) = st_cap s.

(** A database file. *)
Definition recdb_header (version : Z) (typ : list byte) (locked count : Z) : list byte :=
  recdb_magic ++ [version] ++ typ ++ [locked] ++ be32 count.
Definition recdb_image (locked : Z) (l : list stored) : list byte :=
  recdb_header 1 like_type locked (Z.of_nat (length l)) ++ concat (map stored_bytes l).

(** ** Iterating *)

Inductive itop := OpHasNext | OpNext | OpRewind.
Inductive itans :=
| AHas (b : bool)
| AEntry (cap deleted user : Z) (likes dislikes : list Z)
| ADone        (* Rewind succeeded *)
| AFail.

Definition entry_answer (s : stored) : itans :=
  AEntry (st_cap s) (st_deleted s) (st_user s) (st_likes s) (st_dislikes s).

(** What the calls [ops] are to answer when [k] entries of [l] have been read, and
    how many have been read in the end. *)
Fixpoint iterate (l : list stored) (k : nat) (ops : list itop) : list itans :=
  match ops with
  | [] => []
  | OpHasNext :: ops => AHas (bool_decide (k < length l)%nat) :: iterate l k ops
  | OpNext :: ops =>
    match l !! k with
    | Some s => entry_answer s :: iterate l (S k) ops
    | None => AFail :: iterate l k ops
    end
  | OpRewind :: ops => ADone :: iterate l 0 ops
  end.
Fixpoint entries_read (n k : nat) (ops : list itop) : nat :=
  match ops with
  | [] => k
  | OpHasNext :: ops => entries_read n k ops
  | OpNext :: ops => entries_read n (if (k <? n)%nat then S k else k) ops
  | OpRewind :: ops => entries_read n 0 ops
  end.

(** ** Iterating when reads may fail *)

(** Next may fail at any time, and is then as if it had not been called. *)
Fixpoint iterates (l : list stored) (k : nat) (ops : list itop) (answers : list itans) : Prop :=
  match ops, answers with
  | [], [] => True
  | OpHasNext :: ops, a :: answers =>
    a = AHas (bool_decide (k < length l)%nat) /\ iterates l k ops answers
  | OpNext :: ops, a :: answers =>
    a = AFail /\ iterates l k ops answers \/
    exists s, l !! k = Some s /\ a = entry_answer s /\ iterates l (S k) ops answers
  | OpRewind :: ops, a :: answers => a = ADone /\ iterates l 0 ops answers
  | _, _ => False
  end.

(** After a failed Next the entries returned are arbitrary ([lost]) until Rewind; their
    number and HasNext are still right. *)
Fixpoint iterates_until (l : list stored) (lost : bool) (k : nat) (ops : list itop)
    (answers : list itans) : Prop :=
  match ops, answers with
  | [], [] => True
  | OpHasNext :: ops, a :: answers =>
    a = AHas (bool_decide (k < length l)%nat) /\ iterates_until l lost k ops answers
  | OpNext :: ops, a :: answers =>
    a = AFail /\ iterates_until l (lost || bool_decide (k < length l)%nat) k ops answers \/
    exists s, a = entry_answer s /\ (k < length l)%nat /\ (lost = false -> l !! k = Some s) /\
      iterates_until l lost (S k) ops answers
  | OpRewind :: ops, a :: answers => a = ADone /\ iterates_until l false 0 ops answers
  | _, _ => False
  end.
