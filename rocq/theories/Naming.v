(** Model of internal/domain/valueobjects: namespace names and types, and of the
    paths that internal/domain/likenamespace.go and namespaceservice.go build.

    Go strings are byte lists.  The regular expression of ParseNamespaceName is
    interpreted by a small matcher for the constructs it uses.  Go matches runes;
    the classes used are ASCII, and in UTF-8 (also in invalid UTF-8) an ASCII rune
    is the byte itself and no other rune contains an ASCII byte, so the matcher
    works on bytes. *)
From Verif Require Import Base.

(** regexp/syntax: [^] and [$] without the (?m) flag match only the beginning and
    the end of the text; [RClass] is a character class given by its ranges. *)
Inductive regex :=
| RBegin
| REnd
| RClass (ranges : list (byte * byte))
| RCat (a b : regex)
| RStar (a : regex).

Definition in_ranges (ranges : list (byte * byte)) (b : byte) : bool :=
  existsb (fun r => (fst r <=? b) && (b <=? snd r)) ranges.

(** Positions reachable by repeating [step]; every round must make progress. *)
Fixpoint star_ends (step : nat -> list nat) (fuel : nat) (i : nat) : list nat :=
  match fuel with
  | O => [i]
  | S fuel =>
    i :: flat_map (fun j => if (i <? j)%nat then star_ends step fuel j else []) (step i)
  end.

(** The end positions of all matches of [re] in [s] starting at [i]. *)
Fixpoint match_ends (re : regex) (s : list byte) (i : nat) : list nat :=
  match re with
  | RBegin => if (i =? 0)%nat then [i] else []
  | REnd => if (i =? length s)%nat then [i] else []
  | RClass ranges =>
    match s !! i with
    | Some b => if in_ranges ranges b then [S i] else []
    | None => []
    end
  | RCat a b => flat_map (match_ends b s) (match_ends a s i)
  | RStar a => star_ends (match_ends a s) (length s) i
  end.

(** regexp.MatchString: does [re] match somewhere in [s]? *)
Definition match_string (re : regex) (s : list byte) : bool :=
  existsb (fun i => match match_ends re s i with [] => false | _ => true end)
          (seq 0 (S (length s))).

(** namespacename.go:14, the expression [^[a-zA-Z][a-zA-Z0-9_\-]*$] *)
Definition name_regex : regex :=
  RCat RBegin
  (RCat (RClass [(97, 122); (65, 90)])
  (RCat (RStar (RClass [(97, 122); (65, 90); (48, 57); (95, 95); (45, 45)]))
        REnd)).

(** namespacename.go:8-10.  NamespaceName{value} is its value; two names are equal
    (==) when their strings are. *)
Notation ns_name := (list Z) (only parsing).

(** namespacename.go:12-18 ParseNamespaceName *)
Definition parse_namespace_name (value : list byte) : outcome ns_name :=
  if match_string name_regex value then Ret value else Err (EMsg "invalid namespace name").

(** namespacetype.go:5-7 *)
Definition type_like : list byte := ascii_bytes "like".

(** namespacetype.go:13-19 ParseNamespaceType *)
Definition parse_namespace_type (value : list byte) : outcome (list byte) :=
  if bool_decide (value = type_like) then Ret value else Err (EMsg "invalid namespace type").

(** ** Paths *)

(** The three files of a namespace: likenamespace.go:96, 111, 141. *)
Inductive ns_file := DeltaFile | IndexFile | RecdbFile.

Definition ns_file_ext (k : ns_file) : list byte :=
  match k with
  | DeltaFile => ascii_bytes ".delta"
  | IndexFile => ascii_bytes ".index"
  | RecdbFile => ascii_bytes ".recdb"
  end.

(** ns.basePath + ns.name.Value() + extension *)
Definition ns_file_path (basePath : list byte) (name : ns_name) (k : ns_file) : list byte :=
  basePath ++ name ++ ns_file_ext k.

(** namespaceservice.go:42-45: the base path taken from REC_PATH. *)
Definition base_path (env : list byte) : list byte :=
  match last env with
  | None => env
  | Some c => if c =? 47 then env else env ++ ascii_bytes "/"
  end.

(** namespaceservice.go:81-83 getNamespacesJsonPath *)
Definition json_path (basePath : list byte) : list byte :=
  basePath ++ ascii_bytes "namespaces.json".
