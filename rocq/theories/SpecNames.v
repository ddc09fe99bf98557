(** Vocabulary for names, paths, numerals and the namespace service, independent of
    the model's functions. *)
From Coq Require Import Reals.
From Flocq Require Import IEEE754.BinarySingleNaN.
From Verif Require Import Base Similarity.

(** * Names *)
Definition lower_letter (b : byte) : Prop := 97 <= b <= 122.
Definition upper_letter (b : byte) : Prop := 65 <= b <= 90.
Definition letter (b : byte) : Prop := lower_letter b \/ upper_letter b.
Definition digit (b : byte) : Prop := 48 <= b <= 57.

(** The documented language of names: a letter, then letters, digits, '_', '-'. *)
Definition name_ok (s : list byte) : Prop :=
  exists c r, s = c :: r /\ letter c /\
    Forall (fun b => letter b \/ digit b \/ b = 95 \/ b = 45) r.

(** * Paths *)
Definition slash : byte := 47.

(** A file name proper: what may follow a directory path. *)
Definition file_name (c : list byte) : Prop :=
  c <> [] /\ slash ∉ c /\ 0 ∉ c /\ c <> [46] /\ c <> [46; 46].

(** [path] names an entry of the directory [dir] ("" is the current one, any other
    ends with a slash). *)
Definition lies_in (dir path : list byte) : Prop :=
  (dir = [] \/ last dir = Some slash) /\ exists c, file_name c /\ path = dir ++ c.

(** Two paths that cannot name the same file: their last components differ. *)
Definition different_entries (p q : list byte) : Prop :=
  forall d1 c1 d2 c2, slash ∉ c1 -> slash ∉ c2 ->
  p = d1 ++ c1 -> (d1 = [] \/ last d1 = Some slash) ->
  q = d2 ++ c2 -> (d2 = [] \/ last d2 = Some slash) -> c1 <> c2.

(** * Numerals *)

(** The digits [ds], most significant first, write the number [n]. *)
Fixpoint digits_value (ds : list Z) : Z :=
  match ds with
  | [] => 0
  | d :: ds' => d * 10 ^ Z.of_nat (length ds') + digits_value ds'
  end.

(** The text [s] is a decimal integer with value [z]. *)
Definition writes_int (s : list byte) (z : Z) : Prop :=
  exists sign ds, ds <> [] /\ Forall (fun d => 0 <= d <= 9) ds /\
    s = sign ++ map (fun d => d + 48) ds /\
    ((sign = [] \/ sign = [43]) /\ z = digits_value ds \/
     sign = [45] /\ z = - digits_value ds).

(** The text is the usual decimal notation of [z]. *)
Definition canonical_int (s : list byte) (z : Z) : Prop :=
  writes_int s z /\
  (z = 0 -> s = [48]) /\
  (0 < z -> exists c r, s = c :: r /\ 49 <= c <= 57) /\
  (z < 0 -> exists c r, s = 45 :: c :: r /\ 49 <= c <= 57).

(** * Requests *)

(** A dislike factor in [0,1]. *)
Definition factor_in_range (x : f32) : Prop :=
  is_finite x = true /\ (0 <= B2R x <= 1)%R.

(** A name that POST may accept: lower-case letters and digits, a letter first. *)
Definition api_name_ok (s : list byte) : Prop :=
  exists c r, s = c :: r /\ lower_letter c /\ Forall (fun b => lower_letter b \/ digit b) r.
