(** The syntax of JSON texts as encoding/json (Go 1.19) reads them. *)
From Verif Require Import Base.

(** A value; numbers are kept as they are written, strings and keys as what stands
    between their quotes. *)
Inductive json :=
| JNull
| JBool (b : bool)
| JNum (text : list byte)
| JStr (raw : list byte)
| JArr (l : list json)
| JObj (l : list (list byte * json)).

(** scanner.go maxNestingDepth: the scanner keeps one state for every array and object it
    is inside of, and fails when they become more than this (pushParseState).  Nothing is
    decoded before a whole value was scanned, so the depth of the value that was read
    decides. *)
Definition max_nesting : Z := 10000.
Fixpoint json_depth (v : json) : Z :=
  match v with
  | JArr l => 1 + foldr Z.max 0 (map json_depth l)
  | JObj l => 1 + foldr Z.max 0 (map (fun m => json_depth (snd m)) l)
  | _ => 0
  end.

Definition is_ws (c : byte) : bool := (c =? 32) || (c =? 9) || (c =? 10) || (c =? 13).
Definition is_digit (c : byte) : bool := (48 <=? c) && (c <=? 57).
Definition is_hex (c : byte) : bool :=
  is_digit c || ((97 <=? c) && (c <=? 102)) || ((65 <=? c) && (c <=? 70)).

Fixpoint skip_ws (s : list byte) : list byte :=
  match s with
  | c :: s' => if is_ws c then skip_ws s' else s
  | [] => []
  end.

(** Drop a literal text. *)
Fixpoint literal (l s : list byte) : option (list byte) :=
  match l, s with
  | [], _ => Some s
  | c :: l', d :: s' => if c =? d then literal l' s' else None
  | _ :: _, [] => None
  end.

Fixpoint skip_digits (s : list byte) : list byte :=
  match s with
  | c :: s' => if is_digit c then skip_digits s' else s
  | [] => []
  end.

(** One or more digits. *)
Definition digits1 (s : list byte) : option (list byte) :=
  match s with
  | c :: s' => if is_digit c then Some (skip_digits s') else None
  | [] => None
  end.

Definition num_exp (s : list byte) : option (list byte) :=
  match s with
  | c :: s' =>
    if (c =? 101) || (c =? 69) then
      match s' with
      | d :: s'' => if (d =? 43) || (d =? 45) then digits1 s'' else digits1 s'
      | [] => None
      end
    else Some s
  | [] => Some []
  end.

Definition num_frac (s : list byte) : option (list byte) :=
  match s with
  | c :: s' => if c =? 46 then match digits1 s' with Some r => num_exp r | None => None end
               else num_exp s
  | [] => Some []
  end.

(** A number: sign, integer part without leading zeros, fraction, exponent. *)
Definition json_number (s : list byte) : option (list byte) :=
  let s := match s with 45 :: s' => s' | _ => s end in
  match s with
  | c :: s' =>
    if c =? 48 then num_frac s'
    else if is_digit c then num_frac (skip_digits s')
    else None
  | [] => None
  end.

(** The rest of a string after its opening quote. *)
Fixpoint json_string (fuel : nat) (s : list byte) : option (list byte) :=
  match fuel with
  | O => None
  | S fuel =>
    match s with
    | [] => None
    | c :: s' =>
      if c =? 34 then Some s'
      else if c =? 92 then
        match s' with
        | [] => None
        | d :: s'' =>
          if existsb (Z.eqb d) [98; 102; 110; 114; 116; 92; 47; 34] then json_string fuel s''
          else if d =? 117 then
            match s'' with
            | h1 :: h2 :: h3 :: h4 :: r =>
              if is_hex h1 && is_hex h2 && is_hex h3 && is_hex h4 then json_string fuel r
              else None
            | _ => None
            end
          else None
        end
      else if c <? 32 then None
      else json_string fuel s'
    end
  end.

(** What was consumed on the way from [s] to [r]. *)
Definition consumed (s r : list byte) : list byte := take (length s - length r) s.
(** What stands between the quotes: the closing quote was consumed too. *)
Definition quoted (s r : list byte) : list byte := take (length s - S (length r)) s.

(** One value, after leading white space; [elems] and [members] parse the rest of
    an array or object after its opening bracket and first separator check. *)
Fixpoint json_value (fuel : nat) (s : list byte) : option (json * list byte) :=
  match fuel with
  | O => None
  | S fuel =>
    match skip_ws s with
    | [] => None
    | c :: s' =>
      if c =? 91 then
        match skip_ws s' with
        | 93 :: r => Some (JArr [], r)
        | _ => match json_elems fuel s' with Some (l, r) => Some (JArr l, r) | None => None end
        end
      else if c =? 123 then
        match skip_ws s' with
        | 125 :: r => Some (JObj [], r)
        | _ => match json_members fuel s' with Some (l, r) => Some (JObj l, r) | None => None end
        end
      else if c =? 34 then
        match json_string fuel s' with Some r => Some (JStr (quoted s' r), r) | None => None end
      else if c =? 110 then
        match literal (ascii_bytes "ull") s' with Some r => Some (JNull, r) | None => None end
      else if c =? 116 then
        match literal (ascii_bytes "rue") s' with Some r => Some (JBool true, r) | None => None end
      else if c =? 102 then
        match literal (ascii_bytes "alse") s' with Some r => Some (JBool false, r) | None => None end
      else match json_number (c :: s') with
           | Some r => Some (JNum (consumed (c :: s') r), r) | None => None
           end
    end
  end
with json_elems (fuel : nat) (s : list byte) : option (list json * list byte) :=
  match fuel with
  | O => None
  | S fuel =>
    match json_value fuel s with
    | None => None
    | Some (v, r) =>
      match skip_ws r with
      | 44 :: r' =>
        match json_elems fuel r' with Some (l, r'') => Some (v :: l, r'') | None => None end
      | 93 :: r' => Some ([v], r')
      | _ => None
      end
    end
  end
with json_members (fuel : nat) (s : list byte) : option (list (list byte * json) * list byte) :=
  match fuel with
  | O => None
  | S fuel =>
    match skip_ws s with
    | 34 :: s' =>
      match json_string fuel s' with
      | None => None
      | Some r =>
        match skip_ws r with
        | 58 :: r1 =>
          match json_value fuel r1 with
          | None => None
          | Some (v, r2) =>
            match skip_ws r2 with
            | 44 :: r3 =>
              match json_members fuel r3 with
              | Some (l, r4) => Some ((quoted s' r, v) :: l, r4) | None => None
              end
            | 125 :: r3 => Some ([(quoted s' r, v)], r3)
            | _ => None
            end
          end
        | _ => None
        end
      end
    | _ => None
    end
  end.

(** json.Unmarshal's check of the whole text: one value and nothing after it but
    white space.  Every recursive call of the parser consumes a byte or goes from
    an array to its elements, so the fuel is never exhausted. *)
Definition json_parse (s : list byte) : option json :=
  match json_value (2 * length s + 2) s with
  | Some (v, r) =>
    if json_depth v <=? max_nesting then match skip_ws r with [] => Some v | _ => None end
    else None
  | None => None
  end.
