(** The grammar of JSON texts (RFC 8259), with their values.

    As in encoding/json, a string may hold any byte from 0x20 up but a quote and a
    backslash: that the text is UTF-8 is not required. *)
From Verif Require Import Base Json.

Definition ws_char (b : byte) : Prop := b = 32 \/ b = 9 \/ b = 10 \/ b = 13.
Definition ws (s : list byte) : Prop := Forall ws_char s.

Definition dec (b : byte) : Prop := 48 <= b <= 57.
Definition hex (b : byte) : Prop := dec b \/ 97 <= b <= 102 \/ 65 <= b <= 70.
Definition decs (s : list byte) : Prop := s <> [] /\ Forall dec s.

(** number = [ minus ] int [ frac ] [ exp ] *)
Definition int_part (s : list byte) : Prop :=
  s = [48] \/ exists c ds, s = c :: ds /\ 49 <= c <= 57 /\ Forall dec ds.
Definition frac_part (s : list byte) : Prop := s = [] \/ exists ds, decs ds /\ s = 46 :: ds.
Definition exp_part (s : list byte) : Prop :=
  s = [] \/ exists e sg ds, (e = 101 \/ e = 69) /\ (sg = [] \/ sg = [43] \/ sg = [45]) /\
    decs ds /\ s = e :: sg ++ ds.
Definition number (s : list byte) : Prop :=
  exists sg i f e, (sg = [] \/ sg = [45]) /\ int_part i /\ frac_part f /\ exp_part e /\
    s = sg ++ i ++ f ++ e.

(** What stands between the quotes of a string. *)
Inductive chars : list byte -> Prop :=
| chars_nil : chars []
| chars_plain c s : 32 <= c -> c <> 34 -> c <> 92 -> chars s -> chars (c :: s)
| chars_escape d s : d ∈ [34; 92; 47; 98; 102; 110; 114; 116] -> chars s ->
    chars (92 :: d :: s)
| chars_unicode h1 h2 h3 h4 s : hex h1 -> hex h2 -> hex h3 -> hex h4 -> chars s ->
    chars (92 :: 117 :: h1 :: h2 :: h3 :: h4 :: s).

Inductive value : list byte -> json -> Prop :=
| value_null : value (ascii_bytes "null") JNull
| value_true : value (ascii_bytes "true") (JBool true)
| value_false : value (ascii_bytes "false") (JBool false)
| value_number s : number s -> value s (JNum s)
| value_string s : chars s -> value (34 :: s ++ [34]) (JStr s)
| value_no_elements w : ws w -> value (91 :: w ++ [93]) (JArr [])
| value_array b l : elements b l -> value (91 :: b ++ [93]) (JArr l)
| value_no_members w : ws w -> value (123 :: w ++ [125]) (JObj [])
| value_object b l : members b l -> value (123 :: b ++ [125]) (JObj l)
with elements : list byte -> list json -> Prop :=
| elements_one w1 t w2 v : ws w1 -> value t v -> ws w2 -> elements (w1 ++ t ++ w2) [v]
| elements_more w1 t w2 v b l : ws w1 -> value t v -> ws w2 -> elements b l ->
    elements (w1 ++ t ++ w2 ++ 44 :: b) (v :: l)
with members : list byte -> list (list byte * json) -> Prop :=
| members_one w1 k w2 w3 t w4 v : ws w1 -> chars k -> ws w2 -> ws w3 -> value t v -> ws w4 ->
    members (w1 ++ 34 :: k ++ 34 :: w2 ++ 58 :: w3 ++ t ++ w4) [(k, v)]
| members_more w1 k w2 w3 t w4 v b l : ws w1 -> chars k -> ws w2 -> ws w3 -> value t v -> ws w4 ->
    members b l ->
    members (w1 ++ 34 :: k ++ 34 :: w2 ++ 58 :: w3 ++ t ++ w4 ++ 44 :: b) ((k, v) :: l).

Definition json_text (s : list byte) (v : json) : Prop :=
  exists w1 t w2, ws w1 /\ value t v /\ ws w2 /\ s = w1 ++ t ++ w2.

(** [nested n v]: no value stands inside of more than [n] arrays and objects, counting those
    of [v] and [v] itself. *)
Inductive nested : Z -> json -> Prop :=
| nested_null n : nested n JNull
| nested_bool n b : nested n (JBool b)
| nested_num n t : nested n (JNum t)
| nested_str n t : nested n (JStr t)
| nested_arr n l : 1 <= n -> Forall (nested (n - 1)) l -> nested n (JArr l)
| nested_obj n l : 1 <= n -> Forall (fun m => nested (n - 1) (snd m)) l -> nested n (JObj l).
