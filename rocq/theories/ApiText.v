(** Model of the texts of the HTTP interface: gin's ShouldBindJSON, JSON and IndentedJSON on
    the structs of internal/api/shard/dto. *)
From Flocq Require Import IEEE754.BinarySingleNaN.
From Verif Require Import Base GoIO Similarity Naming Json Service Api JsonCodec.

(** ** Requests *)

(** dto/namespacecreaterequest.go:9-14, the json tags *)
Definition create_names : list (list byte) :=
  [ascii_bytes "name"; ascii_bytes "type"; ascii_bytes "maxSimilarProfiles"; ascii_bytes "dislikeFactor"].
Definition create_set (i : nat) (v : json) (b : create_body) : option create_body :=
  match i with
  | 0%nat => (fun s => CreateBody s (cb_type b) (cb_max b) (cb_dislike b)) <$> set_string (cb_name b) v
  | 1%nat => (fun s => CreateBody (cb_name b) s (cb_max b) (cb_dislike b)) <$> set_string (cb_type b) v
  | 2%nat => (fun n => CreateBody (cb_name b) (cb_type b) n (cb_dislike b)) <$> set_uint (cb_max b) v
  | _ => (fun x => CreateBody (cb_name b) (cb_type b) (cb_max b) x) <$> set_float (cb_dislike b) v
  end.
Definition no_create : create_body := CreateBody [] [] 0 (B754_zero false).

(** The body of a POST: decoding of gin's binding.JSON (endpoints/namespaceendpoint.go:49-50). *)
Definition decode_create (text : list byte) : option create_body :=
  decode_struct create_names create_set no_create text.

(** dto/namespaceupdaterequest.go:9-13 *)
Definition update_names : list (list byte) :=
  [ascii_bytes "name"; ascii_bytes "maxSimilarProfiles"; ascii_bytes "dislikeFactor"].
Definition update_set (i : nat) (v : json) (b : update_body) : option update_body :=
  match i with
  | 0%nat => (fun s => UpdateBody s (ub_max b) (ub_dislike b)) <$> set_string (ub_name b) v
  | 1%nat => (fun n => UpdateBody (ub_name b) n (ub_dislike b)) <$> set_uint (ub_max b) v
  | _ => (fun x => UpdateBody (ub_name b) (ub_max b) x) <$> set_float (ub_dislike b) v
  end.
Definition no_update : update_body := UpdateBody [] 0 (B754_zero false).

(** The body of a PUT (endpoints/namespaceendpoint.go:120-121). *)
Definition decode_update (text : list byte) : option update_body :=
  decode_struct update_names update_set no_update text.

(** A request with the text of its body. *)
Definition text_request (m : method) (path : list (list byte)) (text : list byte) (w1 w2 : wfate)
  : request := Request m path (decode_create text) (decode_update text) w1 w2.

(** ** Responses *)

Definition json_string_of (s : list byte) : json := JStr (quote_string s).
Definition json_uint_of (n : Z) : json := JNum (format_uint n).

(** dto/namespaceresponse.go:5-9 *)
Definition namespace_json (r : ns_response) : json :=
  JObj [(ascii_bytes "name", json_string_of (nr_name r));
        (ascii_bytes "type", json_string_of (nr_type r));
        (ascii_bytes "maxSimilarProfiles", json_uint_of (nr_max r))].

(** dto/validationerror.go:4-7 *)
Definition field_error_json (e : field_error) : json :=
  JObj [(ascii_bytes "field", json_string_of (fe_field e));
        (ascii_bytes "message", json_string_of (fe_message e))].

(** dto/error.go:4-6, and gin.H of the same shape *)
Definition message_json (text : list byte) : json :=
  JObj [(ascii_bytes "message", json_string_of text)].

(** endpoints/helpers.go:37-40, 54-57; the keys of a map are written in order. *)
Definition fields_json (l : list field_error) : json :=
  JObj [(ascii_bytes "error", json_string_of (ascii_bytes "validation"));
        (ascii_bytes "errors", JArr (map field_error_json l))].

(** The body of a response; [explain] and [undecoded]: the texts of errors.  Successful
    answers and fixed texts are sent by IndentedJSON, other errors by AbortWithStatusJSON.
    gin answers a panic without a body, and an undeclared path in plain text. *)
Definition body_text (explain : err -> list byte) (undecoded : list byte) (p : payload) : list byte :=
  match p with
  | PNamespace r => marshal_indent 0 (namespace_json r)
  | PList l => marshal_indent 0 (JArr (map namespace_json l))
  | PError (CError e) => marshal (message_json (explain e))
  | PError (CNote m) => marshal_indent 0 (message_json (ascii_bytes m))
  | PError CDecode => marshal (message_json undecoded)
  | PError (CFields l) => marshal (fields_json l)
  | PError CPanic => []
  | PError CNoRoute => ascii_bytes "404 page not found"
  end.
