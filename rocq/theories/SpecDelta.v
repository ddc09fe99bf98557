(** Specification vocabulary for the delta storage, independent of the model:
    the file format as bytes, and what a history of calls means. *)
From Verif Require Import Base SpecFile.

(** "RECDELTA" *)
Definition delta_magic : list byte := [82; 69; 67; 68; 69; 76; 84; 65].

(** A file: magic, version 1, lock byte, 32-bit count of the records, records. *)
Definition delta_image (locked : Z) (recs : list (list byte)) : list byte :=
  delta_magic ++ [1; locked] ++ be32 (Z.of_nat (length recs)) ++ concat recs.

(** An 18-byte record is valid if its last byte is the sum of the others. *)
Definition byte_sum (bs : list byte) : Z := fold_right Z.add 0 bs mod 256.
Definition valid_record (r : list byte) : Prop := last r = Some (byte_sum (take 17 r)).
#[global] Instance valid_record_dec r : Decision (valid_record r).
Proof. unfold valid_record. apply _. Defined.

(** The bytes of an operation. *)
Definition op_record (op user item : Z) : list byte :=
  let body := [op] ++ be64 user ++ be64 item in body ++ [byte_sum body].

(** What happened to a storage, in order. *)
Inductive devent := EvAdd (op user item : Z) | EvFlush.

(** The last operation on a pair. *)
Fixpoint last_add (h : list devent) (user item : Z) : option Z :=
  match h with
  | [] => None
  | EvAdd op u i :: h =>
    match last_add h user item with
    | Some o => Some o
    | None => if (u =? user) && (i =? item) then Some op else None
    end
  | EvFlush :: h => last_add h user item
  end.

(** The part of a history that a completed Flush has made durable / the rest. *)
Fixpoint durable (h : list devent) : list devent :=
  match h with
  | [] => []
  | e :: h' =>
    if existsb (fun e => match e with EvFlush => true | _ => false end) h then e :: durable h'
    else []
  end.
Definition unflushed (h : list devent) : list devent := drop (length (durable h)) h.

Definition mentions (user : Z) (e : devent) : bool :=
  match e with EvAdd _ u _ => u =? user | EvFlush => false end.

(** The users a history mentions. *)
Definition users_of (h : list devent) : gset Z :=
  list_to_set (concat (map (fun e => match e with EvAdd _ u _ => [u] | EvFlush => [] end) h)).

(** Machine-typed events: DeltaOp is a byte, ids are uint64. *)
Definition ev_typed (e : devent) : Prop :=
  match e with EvAdd op u i => is_byte op /\ is_u64 u /\ is_u64 i | EvFlush => True end.

(** [d] cut into its complete 18-byte records and an incomplete rest. *)
Definition splits (d : list byte) (recs : list (list byte)) (rest : list byte) : Prop :=
  d = concat recs ++ rest /\ Forall (fun r => length r = 18%nat) recs /\ (length rest < 18)%nat.

(** [out] is the well-formed unlocked file with the valid records of [d]. *)
Definition recovers_to (d out : list byte) : Prop :=
  (exists h recs rest, d = delta_magic ++ h ++ concat recs ++ rest /\ length h = 6%nat /\
     Forall (fun r => length r = 18%nat) recs /\ (length rest < 18)%nat /\
     out = delta_image 0 (filter valid_record recs)) \/
  ((take 8 d <> delta_magic \/ (length d < 14)%nat) /\ out = delta_image 0 []).
