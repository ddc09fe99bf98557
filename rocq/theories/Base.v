(** Base vocabulary of the model: Go errors and outcomes as values, fixed-width
    integers, big-endian codecs.  No proofs live here. *)
From Coq Require Export ZArith Lia Bool String.
From stdpp Require Export base list gmap numbers sorting.

#[global] Open Scope Z_scope.
#[global] Open Scope list_scope.

(** Go errors as values.
    [EMsg s]: [errors.New(s)] or [fmt.Errorf] with %v (the cause is forgotten).
    [EWrap s e]: [fmt.Errorf] with %w (the cause can be found by [errors.Is]).
    [EPanic], [EDiverge]: not Go errors: a run-time panic / a loop whose fuel ran
    out, propagated as if they were errors; the theorems exclude them. *)
Inductive err :=
| EEOF                      (* io.EOF *)
| EUnexpectedEOF            (* io.ErrUnexpectedEOF *)
| EShortWrite               (* io.ErrShortWrite *)
| EClosed                   (* use of a closed file *)
| EInvalid                  (* invalid offset/whence/size argument *)
| EInjected                 (* an I/O failure decided by the environment *)
| ECorrupted                (* internal/domain/errors.go:3-11 CorruptedFileError *)
| EMsg (s : string)
| EWrap (s : string) (e : err)
| EPanic
| EDiverge.

(** Result of a call: it returns a value, returns an error, panics, or blocks
    forever (also used for exhausted fuel). *)
Inductive outcome (A : Type) :=
| Ret (a : A)
| Err (e : err)
| Panic
| Hang.
Arguments Ret {A} a.
Arguments Err {A} e.
Arguments Panic {A}.
Arguments Hang {A}.

Definition obind {A B} (x : outcome A) (f : A -> outcome B) : outcome B :=
  match x with Ret a => f a | Err e => Err e | Panic => Panic | Hang => Hang end.

(** Go's integer types (arrays.go:3-13 lists them as type constraints; [int] is
    64 bits wide). *)
Inductive inttype := U8 | U16 | U32 | U64 | I8 | I16 | I32 | I64.

Definition bits (t : inttype) : Z :=
  match t with
  | U8 | I8 => 8 | U16 | I16 => 16 | U32 | I32 => 32 | U64 | I64 => 64
  end.

Definition unsigned (t : inttype) : bool :=
  match t with U8 | U16 | U32 | U64 => true | _ => false end.

Definition tmin (t : inttype) : Z := if unsigned t then 0 else - 2 ^ (bits t - 1).
Definition tmax (t : inttype) : Z :=
  if unsigned t then 2 ^ bits t - 1 else 2 ^ (bits t - 1) - 1.

Definition in_type (t : inttype) (z : Z) : Prop := tmin t <= z <= tmax t.

(** Two's complement wrap-around of an arithmetic result. *)
Definition wrap (t : inttype) (z : Z) : Z := (z - tmin t) mod 2 ^ bits t + tmin t.

(** Bytes and machine words are [Z] in range. *)
Notation byte := Z (only parsing).
Definition is_byte (b : Z) : Prop := 0 <= b < 256.
Definition is_u32 (n : Z) : Prop := 0 <= n < 2 ^ 32.
Definition is_u64 (n : Z) : Prop := 0 <= n < 2 ^ 64.
Definition u32 (n : Z) : Z := n mod 2 ^ 32.
Definition u8 (n : Z) : Z := n mod 256.

(** encoding/binary BigEndian.AppendUint32 / AppendUint64: the [k] big-endian
    bytes of [n]. *)
Fixpoint be_enc (k : nat) (n : Z) : list byte :=
  match k with
  | O => []
  | S k' => (n / 256 ^ Z.of_nat k') mod 256 :: be_enc k' n
  end.

(** encoding/binary BigEndian.Uint32 / Uint64. *)
Definition be_dec (bs : list byte) : Z := fold_left (fun acc b => acc * 256 + b) bs 0.

(** ASCII text as bytes (magic numbers such as 'R','E','C',... in the protocols). *)
Fixpoint ascii_bytes (s : string) : list byte :=
  match s with
  | EmptyString => []
  | String c s' => Z.of_nat (Ascii.nat_of_ascii c) :: ascii_bytes s'
  end.

(** Go iterates over maps in an unspecified order.  A [shuffle] is an arbitrary
    such order; model functions that [range] over a map take one. *)
Record shuffle (A : Type) := Shuffle {
  shuf : list A -> list A;
  shuf_perm : forall l, Permutation (shuf l) l
}.
Arguments shuf {A} _ _.
Arguments shuf_perm {A} _ _.
