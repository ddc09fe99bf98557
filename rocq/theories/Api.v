(** Model of internal/api/shard/endpoints and internal/api/shard/dto: the HTTP
    handlers over the namespace service.

    A handler gets the decoded body, or [None] when decoding fails, and answers with a
    structured body.  Not modelled: gin's handling of
    paths that match no route. *)
From Flocq Require Import IEEE754.BinarySingleNaN.
From Verif Require Import Base GoIO Similarity Naming Service.

(** ** go-playground/validator tags *)

(** required on a string, a uint and a float32: not the zero value (== compares
    -0 and 0 equal). *)
Definition tag_required_string (s : list byte) : bool := match s with [] => false | _ => true end.
Definition tag_required_float (x : f32) : bool := match x with B754_zero _ => false | _ => true end.

(** lowercase: not empty and equal to its strings.ToLower.  Only ASCII letters are
    looked at; a string with other letters is refused by alphanum anyway, and
    every use of lowercase comes with alphanum. *)
Definition is_upper (c : byte) : bool := (65 <=? c) && (c <=? 90).
Definition tag_lowercase (s : list byte) : bool :=
  match s with [] => false | _ => forallb (fun c => negb (is_upper c)) s end.

(** alphanum: the expression [^[a-zA-Z0-9]+$] *)
Definition alphanum_regex : regex :=
  let class := RClass [(97, 122); (65, 90); (48, 57)] in
  RCat RBegin (RCat class (RCat (RStar class) REnd)).
Definition tag_alphanum (s : list byte) : bool := match_string alphanum_regex s.

(** oneof=like *)
Definition tag_oneof_like (s : list byte) : bool := bool_decide (s = ascii_bytes "like").

(** omitempty,min=1 on a uint *)
Definition tag_omitempty_min1 (n : Z) : bool := if n =? 0 then true else 1 <=? n.

(** min=0,max=1 on a float32 *)
Definition f32_leb (x y : f32) : bool :=
  match Bcompare x y with Some Lt | Some Eq => true | _ => false end.
Definition tag_min0_max1 (x : f32) : bool :=
  f32_leb (f32_of_int 0) x && f32_leb x (f32_of_int 1).

(** ** DTOs *)

(** dto/namespacecreaterequest.go:9-14 *)
Record create_body := CreateBody {
  cb_name : list byte;
  cb_type : list byte;
  cb_max : Z;
  cb_dislike : f32
}.

(** An invalid field and what is said about it: dto/validationerror.go:4-7. *)
Record field_error := FieldError { fe_field : list byte; fe_message : list byte }.

(** endpoints/helpers.go:13-23 getFieldErrorMsg *)
Definition get_field_error_msg (tag param : list byte) : list byte :=
  if bool_decide (tag = ascii_bytes "required") then ascii_bytes "This field is required"
  else if bool_decide (tag = ascii_bytes "lte") then ascii_bytes "Should be less than " ++ param
  else if bool_decide (tag = ascii_bytes "gte") then ascii_bytes "Should be greater than " ++ param
  else ascii_bytes "Unknown error".

(** The validator reports for each field, in the order of the struct, the first tag that
    fails; it names the field as the struct does.  A tag: its name, its parameter and
    whether the value passes. *)
Definition first_failure (tags : list (string * string * bool)) : option (string * string) :=
  match filter (fun t => snd t = false) tags with
  | t :: _ => Some (fst t)
  | [] => None
  end.
Definition check_field (field : string) (tags : list (string * string * bool)) : list field_error :=
  match first_failure tags with
  | Some (tag, p) => [FieldError (ascii_bytes field) (get_field_error_msg (ascii_bytes tag) (ascii_bytes p))]
  | None => []
  end.

Definition name_tags (s : list byte) : list (string * string * bool) :=
  [("required", "", tag_required_string s); ("lowercase", "", tag_lowercase s);
   ("alphanum", "", tag_alphanum s)]%string.
Definition type_tags (s : list byte) : list (string * string * bool) :=
  [("required", "", tag_required_string s); ("oneof", "like", tag_oneof_like s)]%string.
Definition max_tags (n : Z) : list (string * string * bool) :=
  [("min", "1", tag_omitempty_min1 n)]%string.
Definition factor_tags (x : f32) : list (string * string * bool) :=
  [("required", "", tag_required_float x); ("min", "0", f32_leb (f32_of_int 0) x);
   ("max", "1", f32_leb x (f32_of_int 1))]%string.

(** The binding tags of dto/namespacecreaterequest.go:9-14. *)
Definition create_errors (b : create_body) : list field_error :=
  check_field "Name" (name_tags (cb_name b)) ++
  check_field "Type" (type_tags (cb_type b)) ++
  check_field "MaxSimilarProfiles" (max_tags (cb_max b)) ++
  check_field "DislikeFactor" (factor_tags (cb_dislike b)).

(** dto/validationerror.go:13-50 with ParseNamespaceName and ParseNamespaceType: the field
    error that ToDomain adds. *)
Definition name_domain_error (name : list byte) : list field_error :=
  match parse_namespace_name name with
  | Ret _ => []
  | _ => [FieldError (ascii_bytes "name") (ascii_bytes "invalid namespace name")]
  end.
Definition type_domain_error (type : list byte) : list field_error :=
  match parse_namespace_type type with
  | Ret _ => []
  | _ => [FieldError (ascii_bytes "type")
            (ascii_bytes "invalid namespace type '" ++ type ++ ascii_bytes "'")]
  end.
Definition create_domain_errors (b : create_body) : list field_error :=
  name_domain_error (cb_name b) ++ type_domain_error (cb_type b).

(** dto/namespacecreaterequest.go:16-36 ToDomain *)
Definition create_to_domain (b : create_body) : outcome create_request :=
  match parse_namespace_name (cb_name b), parse_namespace_type (cb_type b) with
  | Ret n, Ret t => Ret (CreateRequest n t (cb_max b) (cb_dislike b))
  | _, _ => Err (EMsg "Validation error")
  end.

(** dto/namespaceupdaterequest.go:9-13 *)
Record update_body := UpdateBody {
  ub_name : list byte;
  ub_max : Z;
  ub_dislike : f32
}.

(** The binding tags of dto/namespaceupdaterequest.go:9-13. *)
Definition update_errors (b : update_body) : list field_error :=
  check_field "Name" (name_tags (ub_name b)) ++
  check_field "MaxSimilarProfiles" (max_tags (ub_max b)) ++
  check_field "DislikeFactor" (factor_tags (ub_dislike b)).

(** dto/namespaceupdaterequest.go:15-26 ToDomain *)
Definition update_to_domain (b : update_body) : outcome update_request :=
  match parse_namespace_name (ub_name b) with
  | Ret n => Ret (UpdateRequest n (ub_max b) (ub_dislike b))
  | _ => Err (EMsg "Validation error")
  end.

(** dto/namespaceresponse.go:5-9 *)
Record ns_response := NsResponse {
  nr_name : list byte;
  nr_type : list byte;
  nr_max : Z
}.

(** dto/namespaceresponse.go:11-17 NewNamespaceResponse; GetType is always "like"
    (likenamespace.go:66-68). *)
Definition new_namespace_response (x : lns) : ns_response :=
  NsResponse (ln_name x) type_like (ln_max x).

(** dto/namespaceresponse.go:19-25 MakeNamespaceResponseArray; a nil namespace
    panics. *)
Fixpoint make_namespace_response_array (l : list (option lns)) : outcome (list ns_response) :=
  match l with
  | [] => Ret []
  | None :: _ => Panic
  | Some x :: l' =>
    obind (make_namespace_response_array l') (fun r => Ret (new_namespace_response x :: r))
  end.

(** ** Handlers *)

(** What a refused client is told. *)
Inductive complaint :=
(** dto/error.go:4-12: the text of an error *)
| CError (e : err)
(** a fixed text *)
| CNote (m : string)
(** the text of the error of a body that cannot be decoded, endpoints/helpers.go:42-44 *)
| CDecode
(** endpoints/helpers.go:37-40, 54-57: a list of invalid fields *)
| CFields (l : list field_error)
(** gin's own answers, which are not JSON: to a panic, to an undeclared path *)
| CPanic
| CNoRoute.

(** A response: its status and what the client is told. *)
Inductive payload :=
| PError (c : complaint)
| PNamespace (r : ns_response)
| PList (l : list ns_response).
Record response := Response { rs_status : Z; rs_body : payload }.

(** gin's Context.Param: the value of the path parameter, "" if there is none of
    that name. *)
Definition param (ps : list (list byte * list byte)) (key : list byte) : list byte :=
  match filter (fun p => fst p = key) ps with
  | p :: _ => snd p
  | [] => []
  end.

(** A failing call decides the response. *)
Definition or_else {A} (m : io svc A) (on_err : err -> response) (k : A -> io svc response)
  : io svc response := fun s =>
  match m s with
  | (s', Ret a) => k a s'
  | (s', Err e) => (s', Ret (on_err e))
  | (s', Panic) => (s', Panic)
  | (s', Hang) => (s', Hang)
  end.

(** dto.FromError of an error, sent with this status. *)
Definition refuse (status : Z) (e : err) : response := Response status (PError (CError e)).
(** An error with a fixed text. *)
Definition note (status : Z) (m : string) : response := Response status (PError (CNote m)).
(** endpoints/helpers.go:27-45 AbortWithBindingErrors, 49-62 AbortWithValidationError, for
    errors that list fields *)
Definition invalid_fields (l : list field_error) : response := Response 400 (PError (CFields l)).
(** endpoints/helpers.go:42-44 for any other error of ShouldBindJSON *)
Definition undecodable : response := Response 400 (PError CDecode).

(** endpoints/namespaceendpoint.go:48-65 Create *)
Definition handle_create (w : wfate) (body : option create_body) : io svc response :=
  match body with
  | None => ioret undecodable
  | Some b =>
    match create_errors b with
    | [] =>
      or_else (iolift (create_to_domain b)) (fun _ => invalid_fields (create_domain_errors b)) (fun d =>
      or_else (create_namespace w d) (refuse 400) (fun ns =>
      ioret (Response 201 (PNamespace (new_namespace_response ns)))))
    | l => ioret (invalid_fields l)
    end
  end.

(** endpoints/namespaceendpoint.go:76-88 Get *)
Definition handle_get (ps : list (list byte * list byte)) : io svc response :=
  or_else (iolift (parse_namespace_name (param ps (ascii_bytes "namespace"))))
          (refuse 400) (fun name =>
  do found <- get_namespace_by_name name;
  match found with
  | None => ioret (note 404 "namespace not found")
  | Some i => do x <- deref i; ioret (Response 200 (PNamespace (new_namespace_response x)))
  end).

(** endpoints/namespaceendpoint.go:96-99 List *)
Definition handle_list : io svc response :=
  do l <- get_namespaces;
  do rs <- iolift (make_namespace_response_array l);
  ioret (Response 200 (PList rs)).

(** endpoints/namespaceendpoint.go:109-145 Update.  [w1], [w2]: the fates of the
    two saves. *)
Definition handle_update (w1 w2 : wfate) (ps : list (list byte * list byte))
    (body : option update_body) : io svc response :=
  or_else (iolift (parse_namespace_name (param ps (ascii_bytes "namespace"))))
          (refuse 400) (fun name =>
  do found <- get_namespace_by_name name;
  match found with
  | None => ioret (note 404 "namespace not found")
  | Some i =>
    match body with
    | None => ioret undecodable
    | Some b =>
      match update_errors b with
      | [] =>
        or_else (iolift (update_to_domain b)) (fun _ => invalid_fields (name_domain_error (ub_name b))) (fun d =>
        do x <- deref i;
        do taken <- (if bool_decide (ln_name x = ub_name b) then ioret false
                     else do f <- get_namespace_by_name (ur_name d);
                          ioret (match f with Some _ => true | None => false end));
        if taken : bool then ioret (note 404 "namespace name taken") else
        or_else (update_namespace w1 name d) (refuse 400) (fun ns =>
        or_else (save_namespaces w2) (refuse 500) (fun _ =>
        ioret (Response 200 (PNamespace (new_namespace_response ns))))))
      | l => ioret (invalid_fields l)
      end
    end
  end).

(** ** Routing *)

Inductive method := MGet | MPost | MPut | MDelete.
Inductive pattern := Lit (s : list byte) | Par (name : list byte).

(** A request: the path is given by its segments (between slashes). *)
Record request := Request {
  rq_method : method;
  rq_path : list (list byte);
  rq_create : option create_body;   (* the body, decoded for POST *)
  rq_update : option update_body;   (* the body, decoded for PUT *)
  rq_w1 : wfate;
  rq_w2 : wfate
}.

(** The parameters bound by a matching pattern; a parameter is never empty. *)
Fixpoint match_path (pats : list pattern) (path : list (list byte))
  : option (list (list byte * list byte)) :=
  match pats, path with
  | [], [] => Some []
  | Lit l :: pats', seg :: path' =>
    if bool_decide (l = seg) then match_path pats' path' else None
  | Par n :: pats', seg :: path' =>
    match seg with
    | [] => None
    | _ => match match_path pats' path' with Some ps => Some ((n, seg) :: ps) | None => None end
    end
  | _, _ => None
  end.

Definition method_eqb (a b : method) : bool :=
  match a, b with
  | MGet, MGet | MPost, MPost | MPut, MPut | MDelete, MDelete => true
  | _, _ => false
  end.

Definition collection : list pattern :=
  [Lit (ascii_bytes "api"); Lit (ascii_bytes "v1"); Lit (ascii_bytes "namespaces")].

(** endpoints/namespaceendpoint.go:25-38 RegisterRoutes *)
Definition routes (q : request)
  : list (method * list pattern * (list (list byte * list byte) -> io svc response)) :=
  [ (MGet, collection, fun _ => handle_list);
    (MPost, collection, fun _ => handle_create (rq_w1 q) (rq_create q));
    (MGet, collection ++ [Par (ascii_bytes "domain")], fun ps => handle_get ps);
    (MPut, collection ++ [Par (ascii_bytes "domain")],
     fun ps => handle_update (rq_w1 q) (rq_w2 q) ps (rq_update q)) ].

Fixpoint dispatch (rs : list (method * list pattern * (list (list byte * list byte) -> io svc response)))
    (q : request) : io svc response :=
  match rs with
  | [] => ioret (Response 404 (PError CNoRoute))
  | (m, pats, h) :: rs' =>
    if method_eqb m (rq_method q) then
      match match_path pats (rq_path q) with
      | Some ps => h ps
      | None => dispatch rs' q
      end
    else dispatch rs' q
  end.

(** gin.Default (application.go:34) installs Recovery: a panicking handler is
    answered 500. *)
Definition recovery (m : io svc response) : io svc response := fun s =>
  match m s with (s', Panic) => (s', Ret (Response 500 (PError CPanic))) | x => x end.

Definition serve (q : request) : io svc response := recovery (dispatch (routes q) q).
