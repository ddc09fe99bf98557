(** What JSON texts mean: characters of strings (RFC 8259, 7; RFC 3629) and numbers. *)
From Coq Require Import Reals.
From Flocq Require Import Core.Core IEEE754.BinarySingleNaN.
From Verif Require Import Base Similarity Json SpecJson.
#[local] Open Scope Z_scope.

(** ** Characters *)

(** A Unicode scalar value: any code point but a surrogate. *)
Definition scalar (c : Z) : Prop := 0 <= c < 55296 \/ 57344 <= c <= 1114111.

(** Its UTF-8 encoding. *)
Definition utf8 (c : Z) : list byte :=
  if c <? 128 then [c]
  else if c <? 2048 then [192 + c / 64; 128 + c mod 64]
  else if c <? 65536 then [224 + c / 4096; 128 + c / 64 mod 64; 128 + c mod 64]
  else [240 + c / 262144; 128 + c / 4096 mod 64; 128 + c / 64 mod 64; 128 + c mod 64].

(** The text of a sequence of characters. *)
Definition utf8_text (cs : list Z) : list byte := concat (map utf8 cs).

(** Bytes of any kind, read as characters: a byte with which no character starts is shown as
    the replacement character U+FFFD. *)
Inductive shown : list byte -> list Z -> Prop :=
| shown_nil : shown [] []
| shown_char c s cs : scalar c -> shown s cs -> shown (utf8 c ++ s) (c :: cs)
| shown_bad b s cs : (forall c r, scalar c -> b :: s <> utf8 c ++ r) -> shown s cs -> shown (b :: s) (65533 :: cs).

(** Bytes that are characters. *)
Definition utf8_encoded (s : list byte) : Prop := exists cs, Forall scalar cs /\ s = utf8_text cs.

(** ** Strings *)

(** The value of a hexadecimal digit, of four of them. *)
Inductive hex_value : byte -> Z -> Prop :=
| hex_dec b : 48 <= b <= 57 -> hex_value b (b - 48)
| hex_lower b : 97 <= b <= 102 -> hex_value b (b - 87)
| hex_upper b : 65 <= b <= 70 -> hex_value b (b - 55).
Definition hex4_value (h : list byte) (v : Z) : Prop :=
  exists h1 h2 h3 h4 v1 v2 v3 v4, h = [h1; h2; h3; h4] /\ hex_value h1 v1 /\ hex_value h2 v2 /\
    hex_value h3 v3 /\ hex_value h4 v4 /\ v = v1 * 4096 + v2 * 256 + v3 * 16 + v4.

(** The character of a two-character escape. *)
Inductive escape_value : byte -> Z -> Prop :=
| escape_quote : escape_value 34 34
| escape_backslash : escape_value 92 92
| escape_slash : escape_value 47 47
| escape_b : escape_value 98 8
| escape_f : escape_value 102 12
| escape_n : escape_value 110 10
| escape_r : escape_value 114 13
| escape_t : escape_value 116 9.

(** What stands between the quotes of a string, and the characters it means. *)
Inductive means : list byte -> list Z -> Prop :=
| means_nil : means [] []
| means_plain c s cs : scalar c -> 32 <= c -> c <> 34 -> c <> 92 -> means s cs ->
    means (utf8 c ++ s) (c :: cs)
| means_escape d c s cs : escape_value d c -> means s cs -> means (92 :: d :: s) (c :: cs)
| means_unicode h c s cs : hex4_value h c -> scalar c -> means s cs ->
    means (92 :: 117 :: h ++ s) (c :: cs)
| means_pair h1 v1 h2 v2 s cs : hex4_value h1 v1 -> hex4_value h2 v2 ->
    55296 <= v1 < 56320 -> 56320 <= v2 < 57344 -> means s cs ->
    means (92 :: 117 :: h1 ++ 92 :: 117 :: h2 ++ s)
      (65536 + (v1 - 55296) * 1024 + (v2 - 56320) :: cs).

(** The same for a string with bytes that are no UTF-8, or with half a surrogate pair: the
    replacement character stands for each such byte and each such escape. *)
Inductive reads : list byte -> list Z -> Prop :=
| reads_nil : reads [] []
| reads_plain c s cs : scalar c -> 32 <= c -> c <> 34 -> c <> 92 -> reads s cs ->
    reads (utf8 c ++ s) (c :: cs)
| reads_bad b s cs : 128 <= b -> (forall c r, scalar c -> b :: s <> utf8 c ++ r) -> reads s cs ->
    reads (b :: s) (65533 :: cs)
| reads_escape d c s cs : escape_value d c -> reads s cs -> reads (92 :: d :: s) (c :: cs)
| reads_unicode h c s cs : hex4_value h c -> scalar c -> reads s cs ->
    reads (92 :: 117 :: h ++ s) (c :: cs)
| reads_pair h1 v1 h2 v2 s cs : hex4_value h1 v1 -> hex4_value h2 v2 ->
    55296 <= v1 < 56320 -> 56320 <= v2 < 57344 -> reads s cs ->
    reads (92 :: 117 :: h1 ++ 92 :: 117 :: h2 ++ s)
      (65536 + (v1 - 55296) * 1024 + (v2 - 56320) :: cs)
| reads_half h v s cs : hex4_value h v -> 55296 <= v < 57344 ->
    (v < 56320 -> forall h2 v2 r, hex4_value h2 v2 -> 56320 <= v2 < 57344 -> s <> 92 :: 117 :: h2 ++ r) ->
    reads s cs -> reads (92 :: 117 :: h ++ s) (65533 :: cs).

(** ** Numbers *)

(** The value of a sequence of decimal digits. *)
Fixpoint decimal_value (ds : list byte) : Z :=
  match ds with
  | [] => 0
  | d :: r => (d - 48) * 10 ^ Z.of_nat (length r) + decimal_value r
  end.

Inductive exp_value : list byte -> Z -> Prop :=
| exp_none : exp_value [] 0
| exp_plain e ds : e = 101 \/ e = 69 -> decs ds -> exp_value (e :: ds) (decimal_value ds)
| exp_plus e ds : e = 101 \/ e = 69 -> decs ds -> exp_value (e :: 43 :: ds) (decimal_value ds)
| exp_minus e ds : e = 101 \/ e = 69 -> decs ds -> exp_value (e :: 45 :: ds) (- decimal_value ds).
Inductive frac_digits : list byte -> list byte -> Prop :=
| frac_none : frac_digits [] []
| frac_some ds : decs ds -> frac_digits (46 :: ds) ds.
Inductive sign_value : list byte -> Z -> Prop :=
| sign_plus : sign_value [] 1
| sign_minus : sign_value [45] (-1).

Definition radix10 : radix := Build_radix 10 eq_refl.
Inductive number_value : list byte -> R -> Prop :=
| number_value_of sg sv i f fd e ev :
    sign_value sg sv -> int_part i -> frac_digits f fd -> exp_value e ev ->
    number_value (sg ++ i ++ f ++ e)
      (IZR (sv * decimal_value (i ++ fd)) * bpow radix10 (ev - Z.of_nat (length fd)))%R.

(** ** Structs *)

(** Letters that differ in case only, in Unicode: the Kelvin sign is a k, the long s an s. *)
Definition fold_char (c : Z) : Z :=
  if (65 <=? c) && (c <=? 90) then c + 32 else if c =? 8490 then 107 else if c =? 383 then 115 else c.
Definition same_word (a b : list Z) : Prop := map fold_char a = map fold_char b.

(** The values that the members of this name give, in order. *)
Inductive picked (name : list Z) : list (list byte * json) -> list json -> Prop :=
| picked_nil : picked name [] []
| picked_this k cs v ms l : reads k cs -> same_word cs name -> picked name ms l ->
    picked name ((k, v) :: ms) (v :: l)
| picked_other k cs v ms l : reads k cs -> ~ same_word cs name -> picked name ms l ->
    picked name ((k, v) :: ms) l.

(** The value of a field that held [x] after these were stored in it: the last one that is not
    null.  Each has to be null or to fit. *)
Inductive stored {A} (fits : json -> A -> Prop) : A -> list json -> A -> Prop :=
| stored_nil x : stored fits x [] x
| stored_null x l y : stored fits x l y -> stored fits x (JNull :: l) y
| stored_value x v x' l y : fits v x' -> stored fits x' l y -> stored fits x (v :: l) y.

Definition fits_string (v : json) (s : list byte) : Prop :=
  exists raw cs, v = JStr raw /\ reads raw cs /\ s = utf8_text cs.
Definition fits_uint64 (v : json) (n : Z) : Prop :=
  exists t, v = JNum t /\ decs t /\ n = decimal_value t /\ n < 2 ^ 64.

(** The nearest float32 (ties to even) has no room for the number: it does not fit. *)
Definition nearest32 : R -> R := round radix2 (FLT_exp (-149) 24) ZnearestE.
Definition fits_float32 (v : json) (x : f32) : Prop :=
  exists t r, v = JNum t /\ number_value t r /\ (Rabs (nearest32 r) < bpow radix2 128)%R /\
    is_finite x = true /\ B2R x = nearest32 r /\ (Bsign x = true <-> exists t', t = 45 :: t').

(** No string in the value, nor a key, has a lone surrogate or an invalid UTF-8 sequence. *)
Inductive unicode : json -> Prop :=
| unicode_null : unicode JNull
| unicode_bool b : unicode (JBool b)
| unicode_num t : unicode (JNum t)
| unicode_str raw cs : means raw cs -> unicode (JStr raw)
| unicode_arr l : Forall unicode l -> unicode (JArr l)
| unicode_obj ms : Forall (fun m => (exists cs, means (fst m) cs) /\ unicode (snd m)) ms -> unicode (JObj ms).
