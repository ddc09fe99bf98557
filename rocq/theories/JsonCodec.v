(** Model of the parts of encoding/json (Go 1.19) that the HTTP interface uses: quoting and
    unquoting of strings, numbers, decoding of an object into a struct, compact and indented
    output.  ParseFloat is taken to round correctly (it caps exponents at 10000, which only
    matters for numbers of thousands of digits). *)
From Flocq Require Import IEEE754.BinarySingleNaN.
From Verif Require Import Base Similarity Json.

(** ** unicode/utf8 *)

(** utf8.RuneError *)
Definition rune_error : Z := 65533.
Definition cont (c : byte) : bool := (128 <=? c) && (c <=? 191).

(** utf8.DecodeRune: the first rune and its size; (RuneError, 1) for an invalid byte. *)
Definition decode_rune (s : list byte) : Z * nat :=
  match s with
  | [] => (rune_error, 0%nat)
  | c0 :: s1 =>
    if c0 <? 128 then (c0, 1%nat)
    else if (194 <=? c0) && (c0 <=? 223) then
      match s1 with
      | c1 :: _ => if cont c1 then ((c0 - 192) * 64 + (c1 - 128), 2%nat) else (rune_error, 1%nat)
      | _ => (rune_error, 1%nat)
      end
    else if (224 <=? c0) && (c0 <=? 239) then
      match s1 with
      | c1 :: c2 :: _ =>
        let lo := if c0 =? 224 then 160 else 128 in
        let hi := if c0 =? 237 then 159 else 191 in
        if (lo <=? c1) && (c1 <=? hi) && cont c2
        then ((c0 - 224) * 4096 + (c1 - 128) * 64 + (c2 - 128), 3%nat) else (rune_error, 1%nat)
      | _ => (rune_error, 1%nat)
      end
    else if (240 <=? c0) && (c0 <=? 244) then
      match s1 with
      | c1 :: c2 :: c3 :: _ =>
        let lo := if c0 =? 240 then 144 else 128 in
        let hi := if c0 =? 244 then 143 else 191 in
        if (lo <=? c1) && (c1 <=? hi) && cont c2 && cont c3
        then ((c0 - 240) * 262144 + (c1 - 128) * 4096 + (c2 - 128) * 64 + (c3 - 128), 4%nat)
        else (rune_error, 1%nat)
      | _ => (rune_error, 1%nat)
      end
    else (rune_error, 1%nat)
  end.

(** utf8.EncodeRune *)
Definition is_surrogate (r : Z) : bool := (55296 <=? r) && (r <? 57344).
Definition encode_rune (r : Z) : list byte :=
  let r := if is_surrogate r || (r <? 0) || (1114111 <? r) then rune_error else r in
  if r <=? 127 then [r]
  else if r <=? 2047 then [192 + Z.shiftr r 6; 128 + Z.land r 63]
  else if r <=? 65535 then [224 + Z.shiftr r 12; 128 + Z.land (Z.shiftr r 6) 63; 128 + Z.land r 63]
  else [240 + Z.shiftr r 18; 128 + Z.land (Z.shiftr r 12) 63; 128 + Z.land (Z.shiftr r 6) 63;
        128 + Z.land r 63].

(** ** encode.go encodeState.string, with escapeHTML *)

Definition hex_digit (v : Z) : byte := if v <? 10 then 48 + v else 87 + v.
Definition html_safe (b : byte) : bool :=
  (32 <=? b) && negb (existsb (Z.eqb b) [34; 92; 60; 62; 38]).

Fixpoint quote (fuel : nat) (s : list byte) : list byte :=
  match fuel with
  | O => []
  | S fuel =>
    match s with
    | [] => []
    | b :: s' =>
      if b <? 128 then
        (if html_safe b then [b]
         else if (b =? 92) || (b =? 34) then [92; b]
         else if b =? 10 then [92; 110]
         else if b =? 13 then [92; 114]
         else if b =? 9 then [92; 116]
         else [92; 117; 48; 48; hex_digit (Z.shiftr b 4); hex_digit (Z.land b 15)]) ++ quote fuel s'
      else
        let '(c, size) := decode_rune s in
        (if (c =? rune_error) && (Nat.eqb size 1) then [92; 117; 102; 102; 102; 100]
         else if (c =? 8232) || (c =? 8233) then [92; 117; 50; 48; 50; hex_digit (Z.land c 15)]
         else take size s) ++ quote fuel (drop size s)
    end
  end.

(** ** decode.go unquote, getu4; unicode/utf16 DecodeRune *)

Definition hex_val (c : byte) : option Z :=
  if (48 <=? c) && (c <=? 57) then Some (c - 48)
  else if (97 <=? c) && (c <=? 102) then Some (c - 87)
  else if (65 <=? c) && (c <=? 70) then Some (c - 55)
  else None.

(** -1 if there is no escape of this form. *)
Definition getu4 (s : list byte) : Z :=
  match s with
  | 92 :: 117 :: h1 :: h2 :: h3 :: h4 :: _ =>
    match hex_val h1, hex_val h2, hex_val h3, hex_val h4 with
    | Some v1, Some v2, Some v3, Some v4 => ((v1 * 16 + v2) * 16 + v3) * 16 + v4
    | _, _, _, _ => -1
    end
  | _ => -1
  end.

Definition utf16_decode (r1 r2 : Z) : Z :=
  if (55296 <=? r1) && (r1 <? 56320) && (56320 <=? r2) && (r2 <? 57344)
  then (r1 - 55296) * 1024 + (r2 - 56320) + 65536 else rune_error.

Definition unescape (d : byte) : option byte :=
  if existsb (Z.eqb d) [34; 92; 47; 39] then Some d
  else if d =? 98 then Some 8
  else if d =? 102 then Some 12
  else if d =? 110 then Some 10
  else if d =? 114 then Some 13
  else if d =? 116 then Some 9
  else None.

Fixpoint unquote (fuel : nat) (s : list byte) : option (list byte) :=
  match fuel with
  | O => None
  | S fuel =>
    match s with
    | [] => Some []
    | c :: s' =>
      if c =? 92 then
        match s' with
        | [] => None
        | d :: s'' =>
          if d =? 117 then
            let rr := getu4 s in
            if rr <? 0 then None
            else
              let rest := drop 6 s in
              if is_surrogate rr then
                let dec := utf16_decode rr (getu4 rest) in
                if dec =? rune_error then (encode_rune rune_error ++.) <$> unquote fuel rest
                else (encode_rune dec ++.) <$> unquote fuel (drop 6 rest)
              else (encode_rune rr ++.) <$> unquote fuel rest
          else match unescape d with
               | Some b => (b ::.) <$> unquote fuel s''
               | None => None
               end
        end
      else if (c =? 34) || (c <? 32) then None
      else if c <? 128 then (c ::.) <$> unquote fuel s'
      else let '(rr, size) := decode_rune s in
           (encode_rune rr ++.) <$> unquote fuel (drop size s)
    end
  end.

Definition quote_string (s : list byte) : list byte := quote (length s) s.
Definition unquote_string (s : list byte) : option (list byte) := unquote (S (length s)) s.

(** ** Numbers *)

(** The digits in front and what follows. *)
Fixpoint span_digits (s : list byte) : list byte * list byte :=
  match s with
  | c :: s' => if is_digit c then let '(ds, r) := span_digits s' in (c :: ds, r) else ([], s)
  | [] => ([], [])
  end.
Definition read_digits (ds : list byte) (acc : Z) : Z :=
  fold_left (fun a c => a * 10 + (c - 48)) ds acc.

(** strconv.ParseUint(s, 10, 64) *)
Definition parse_uint (s : list byte) : option Z :=
  match span_digits s with
  | ([], _) => None
  | (ds, []) => let n := read_digits ds 0 in if n <? 2 ^ 64 then Some n else None
  | (_, _ :: _) => None
  end.

(** Sign, digits and decimal exponent of a number. *)
Definition read_float (s : list byte) : bool * Z * Z :=
  let '(neg, s) := match s with 45 :: s' => (true, s') | _ => (false, s) end in
  let '(i, s) := span_digits s in
  let '(f, s) := match s with 46 :: s' => span_digits s' | _ => ([], s) end in
  let e :=
    match s with
    | _ :: 45 :: s' => - read_digits (fst (span_digits s')) 0
    | _ :: 43 :: s' => read_digits (fst (span_digits s')) 0
    | _ :: s' => read_digits (fst (span_digits s')) 0
    | [] => 0
    end in
  (neg, read_digits f (read_digits i 0), e - Z.of_nat (length f)).

(** strconv.ParseFloat(s, 32): the nearest float32, ties to even; an error if that is an
    infinity.  The quotient is first rounded to odd, far below the last bit of a float32. *)
Definition odd_quotient (a b : Z) : Z :=
  let q := a / b in
  if a mod b =? 0 then q else if Z.even q then q + 1 else q.
Definition float_of_decimal (neg : bool) (m e : Z) : f32 :=
  let m := if neg then - m else m in
  if 0 <=? e then binary_normalize 24 128 _ _ mode_NE (m * 10 ^ e) 0 neg
  else binary_normalize 24 128 _ _ mode_NE (odd_quotient (m * 2 ^ 160) (10 ^ (- e))) (-160) neg.
Definition parse_float (s : list byte) : option f32 :=
  let '(neg, m, e) := read_float s in
  match float_of_decimal neg m e with
  | B754_infinity _ => None
  | x => Some x
  end.

(** strconv.AppendUint *)
Fixpoint uint_digits (fuel : nat) (n : Z) : list byte :=
  match fuel with
  | O => []
  | S fuel => if n <? 10 then [48 + n] else uint_digits fuel (n / 10) ++ [48 + n mod 10]
  end.
Definition format_uint (n : Z) : list byte := uint_digits (S (Z.to_nat (Z.log2 n))) n.

(** ** Decoding into a struct: decode.go object, fold.go *)

Definition upper (c : byte) : byte := if (97 <=? c) && (c <=? 122) then c - 32 else c.

(** fold.go equalFoldRight, for a name of letters (on names without k and s,
    simpleLetterEqualFold accepts the same keys). *)
Fixpoint equal_fold (name key : list byte) : bool :=
  match name with
  | [] => match key with [] => true | _ => false end
  | sb :: name' =>
    match key with
    | [] => false
    | tb :: key' =>
      if tb <? 128 then (upper sb =? upper tb) && equal_fold name' key'
      else
        let '(tr, size) := decode_rune key in
        if upper sb =? 83 then (tr =? 383) && equal_fold name' (drop size key)
        else if upper sb =? 75 then (tr =? 8490) && equal_fold name' (drop size key)
        else false
    end
  end.

(** The field that a key names: the exact name, else the first that matches but for case. *)
Definition find_field (names : list (list byte)) (key : list byte) : option nat :=
  match list_find (fun n => n = key) names with
  | Some (i, _) => Some i
  | None => fst <$> list_find (fun n => equal_fold n key = true) names
  end.

(** decode.go literalStore, array, object on a string, a uint and a float32: null leaves the
    field as it is, any other kind of value is an error. *)
Definition set_string (old : list byte) (v : json) : option (list byte) :=
  match v with
  | JNull => Some old
  | JStr raw => unquote_string raw
  | _ => None
  end.
Definition set_uint (old : Z) (v : json) : option Z :=
  match v with
  | JNull => Some old
  | JNum text => parse_uint text
  | _ => None
  end.
Definition set_float (old : f32) (v : json) : option f32 :=
  match v with
  | JNull => Some old
  | JNum text => parse_float text
  | _ => None
  end.

(** The members in order; [set i v x] stores a value in the field of this number.  (After
    an error decoding goes on, but the result is not used.) *)
Fixpoint decode_members {A} (names : list (list byte)) (set : nat -> json -> A -> option A)
    (ms : list (list byte * json)) (x : A) : option A :=
  match ms with
  | [] => Some x
  | (k, v) :: ms' =>
    match unquote_string k with
    | None => None
    | Some key =>
      match find_field names key with
      | None => decode_members names set ms' x
      | Some i =>
        match set i v x with
        | Some x' => decode_members names set ms' x'
        | None => None
        end
      end
    end
  end.

(** stream.go Decoder.Decode, called once: the first value of the text; what follows is not
    looked at. *)
Definition decode_struct {A} (names : list (list byte)) (set : nat -> json -> A -> option A)
    (zero : A) (text : list byte) : option A :=
  match json_value (2 * length text + 2) text with
  | Some (v, _) =>
    if json_depth v <=? max_nesting then
      match v with
      | JNull => Some zero
      | JObj ms => decode_members names set ms zero
      | _ => None
      end
    else None
  | None => None
  end.

(** ** Output *)

Definition join (sep : list byte) (l : list (list byte)) : list byte :=
  match l with
  | [] => []
  | x :: l' => x ++ concat (map (sep ++.) l')
  end.

(** encode.go Marshal *)
Fixpoint marshal (v : json) : list byte :=
  match v with
  | JNull => ascii_bytes "null"
  | JBool true => ascii_bytes "true"
  | JBool false => ascii_bytes "false"
  | JNum t => t
  | JStr raw => 34 :: raw ++ [34]
  | JArr l => 91 :: join [44] (map marshal l) ++ [93]
  | JObj l => 123 :: join [44] (map (fun p => (34 :: fst p ++ [34; 58]) ++ marshal (snd p)) l) ++ [125]
  end.

(** indent.go, with four spaces: MarshalIndent of the value at some depth. *)
Definition new_line (depth : nat) : list byte := 10 :: replicate (4 * depth) 32.
Fixpoint marshal_indent (depth : nat) (v : json) : list byte :=
  match v with
  | JArr [] => [91; 93]
  | JArr l => 91 :: new_line (S depth) ++ join (44 :: new_line (S depth)) (map (marshal_indent (S depth)) l)
                ++ new_line depth ++ [93]
  | JObj [] => [123; 125]
  | JObj l => 123 :: new_line (S depth) ++ join (44 :: new_line (S depth))
                (map (fun p => (34 :: fst p ++ [34; 58; 32]) ++ marshal_indent (S depth) (snd p)) l)
                ++ new_line depth ++ [125]
  | _ => marshal v
  end.
