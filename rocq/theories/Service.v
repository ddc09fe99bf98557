(** Model of internal/domain/namespaceservice.go and of the data of
    internal/domain/likenamespace.go (its worker is in Worker.v, its files in
    LikeStart.v).

    A namespace pointer is the value it points to, kept at its place in the list;
    [None] is a nil interface.  A nil slice is treated as an empty one. *)
From Verif Require Import Base Arrays GoIO Similarity Naming Json.

(** likenamespace.go:14-24.  [ln_has_factory]: likeStorageFactory is not nil;
    [ln_closed]: the action channel is closed. *)
Record lns := Lns {
  ln_name : ns_name;
  ln_max : Z;
  ln_dislike : f32;
  ln_base : list byte;
  ln_has_factory : bool;
  ln_closed : bool
}.

(** likenamespace.go:30-38 LikeNamespaceDto *)
Record lns_dto := LnsDto {
  ld_name : ns_name;
  ld_max : Z;
  ld_dislike : f32;
  ld_base : list byte;
  ld_has_factory : bool
}.

(** likenamespace.go:41-58 NewLikeNamespace *)
Definition new_like_namespace (dto : lns_dto) : lns :=
  Lns (ld_name dto)
      (if ld_max dto =? 0 then 1000 else ld_max dto)
      (ld_dislike dto) (ld_base dto) (ld_has_factory dto) false.

(** likenamespace.go:72, 79, 91: the assignments of Rename,
    SetMaxSimilarProfiles and SetDislikeFactor. *)
Definition set_name (n : ns_name) (x : lns) : lns :=
  Lns n (ln_max x) (ln_dislike x) (ln_base x) (ln_has_factory x) (ln_closed x).
Definition set_max (m : Z) (x : lns) : lns :=
  Lns (ln_name x) m (ln_dislike x) (ln_base x) (ln_has_factory x) (ln_closed x).
Definition set_dislike (d : f32) (x : lns) : lns :=
  Lns (ln_name x) (ln_max x) d (ln_base x) (ln_has_factory x) (ln_closed x).
Definition set_closed (x : lns) : lns :=
  Lns (ln_name x) (ln_max x) (ln_dislike x) (ln_base x) (ln_has_factory x) true.

(** namespaceservice.go:28-34 NamespaceService.  [sv_json] is the content of the
    file namespaces.json ([None]: there is none).  Ghost: [sv_gone], the namespaces that
    were taken off the list, as they were then. *)
Record svc := Svc {
  sv_list : list (option lns);
  sv_base : list byte;
  sv_json : option (list byte);
  sv_gone : list (option lns)
}.

Definition set_list (l : list (option lns)) (s : svc) : svc := Svc l (sv_base s) (sv_json s) (sv_gone s).
Definition set_json (d : list byte) (s : svc) : svc := Svc (sv_list s) (sv_base s) (Some d) (sv_gone s).
Definition set_gone (x : option lns) (s : svc) : svc := Svc (sv_list s) (sv_base s) (sv_json s) (sv_gone s ++ [x]).

(** namespaceservice.go:37-53 NewNamespaceService, given the environment variable
    REC_PATH and what a previous process left on disk. *)
Definition new_service (rec_path : list byte) (disk : option (list byte)) : svc :=
  Svc [] (base_path rec_path) disk [].

(** namespaceservice.go:13-18 and 21-25. *)
Record create_request := CreateRequest {
  cr_name : ns_name;
  cr_type : list byte;
  cr_max : Z;
  cr_dislike : f32
}.
Record update_request := UpdateRequest {
  ur_name : ns_name;
  ur_max : Z;
  ur_dislike : f32
}.

(** namespaceservice.go:56-71 forgeNamespace: neither BasePath nor
    LikeStorageFactory is set. *)
Definition forge_namespace (dto : create_request) : outcome lns :=
  if bool_decide (cr_type dto = type_like) then
    Ret (new_like_namespace (LnsDto (cr_name dto) (cr_max dto) (cr_dislike dto) [] false))
  else Err (EMsg "unknown domain type").

(** What os.WriteFile does: it succeeds, cannot open the file, or truncates it and
    writes only the first [n] bytes. *)
Inductive wfate := WOk | WNoOpen | WPart (n : nat).

(** json.Marshal of the list: a *likeNamespace has no exported field, so it is
    encoded as an empty object; a nil interface is null. *)
Definition marshal_elem (x : option lns) : list byte :=
  match x with Some _ => ascii_bytes "{}" | None => ascii_bytes "null" end.
Fixpoint marshal_rest (l : list (option lns)) : list byte :=
  match l with
  | [] => ascii_bytes "]"
  | x :: l' => ascii_bytes "," ++ marshal_elem x ++ marshal_rest l'
  end.
Definition marshal (l : list (option lns)) : list byte :=
  match l with
  | [] => ascii_bytes "[]"
  | x :: l' => ascii_bytes "[" ++ marshal_elem x ++ marshal_rest l'
  end.

(** namespaceservice.go:102-113 SaveNamespaces *)
Definition save_namespaces (w : wfate) : io svc unit := fun s =>
  let data := marshal (sv_list s) in
  match w with
  | WOk => (set_json data s, Ret tt)
  | WNoOpen => (s, Err (EMsg "failed to write namespaces.json"))
  | WPart n => (set_json (take n data) s, Err (EMsg "failed to write namespaces.json"))
  end.

(** json.Unmarshal of one element into an element of []Namespace that currently
    holds [old].  null gives nil.  An object is decoded into the struct that a
    non-nil interface points to (no exported field: nothing changes); a nil
    interface with methods cannot be filled and stays nil, which is an error.
    Any other value is an error.  The error is remembered and decoding goes on. *)
Definition decode_elem (old : option lns) (j : json) : option lns * bool :=
  match j, old with
  | JNull, _ => (None, true)
  | JObj _, Some x => (Some x, true)
  | JObj _, None => (None, false)
  | _, _ => (old, false)
  end.
Fixpoint decode_elems (old : list (option lns)) (js : list json) : list (option lns) * bool :=
  match js with
  | [] => ([], true)
  | j :: js' =>
    let '(x, ok) := decode_elem (default None (head old)) j in
    let '(l, ok') := decode_elems (tail old) js' in
    (x :: l, ok && ok')
  end.

(** namespaceservice.go:88-99 LoadNamespaces.  A text that is not JSON changes
    nothing; null empties the list. *)
Definition load_namespaces : io svc unit := fun s =>
  match sv_json s with
  | None => (s, Err (EMsg "failed to open namespaces.json"))
  | Some data =>
    match json_parse data with
    | None => (s, Err (EMsg "failed to decode namespaces.json"))
    | Some JNull => (set_list [] s, Ret tt)
    | Some (JArr js) =>
      let '(l, ok) := decode_elems (sv_list s) js in
      (set_list l s, if ok then Ret tt else Err (EMsg "failed to decode namespaces.json"))
    | Some _ => (s, Err (EMsg "failed to decode namespaces.json"))
    end
  end.

(** namespaceservice.go:116-118 GetNamespaces *)
Definition get_namespaces : io svc (list (option lns)) := fun s => (s, Ret (sv_list s)).

(** namespaceservice.go:121-128 getNamespaceIndexByName; GetName of a nil
    interface panics. *)
Fixpoint index_by_name (i : Z) (l : list (option lns)) (name : ns_name) : outcome Z :=
  match l with
  | [] => Ret (-1)
  | None :: _ => Panic
  | Some x :: l' =>
    if bool_decide (ln_name x = name) then Ret i else index_by_name (i + 1) l' name
  end.
Definition get_namespace_index_by_name (name : ns_name) : io svc Z := fun s =>
  (s, index_by_name 0 (sv_list s) name).

(** The namespace a pointer stands for, and an assignment through the pointer. *)
Definition deref (i : Z) : io svc lns := fun s =>
  match at_index (sv_list s) i with
  | Ret (Some x) => (s, Ret x)
  | _ => (s, Panic)
  end.
Definition assign (i : Z) (g : lns -> lns) : io svc unit :=
  do x <- deref i;
  fun s => (set_list (<[Z.to_nat i := Some (g x)]> (sv_list s)) s, Ret tt).

(** namespaceservice.go:131-137 GetNamespaceByName: the place of the namespace, or
    nil. *)
Definition get_namespace_by_name (name : ns_name) : io svc (option Z) :=
  do index <- get_namespace_index_by_name name;
  if index <? 0 then ioret None else ioret (Some index).

(** namespaceservice.go:140-155 CreateNamespace *)
Definition create_namespace (w : wfate) (dto : create_request) : io svc lns :=
  do index <- get_namespace_index_by_name (cr_name dto);
  if 0 <=? index then iofail (EMsg "namespace name is already taken") else
  do ns <- iolift (forge_namespace dto);
  run (fun s => (set_list (sv_list s ++ [Some ns]) s, Ret tt));
  run (save_namespaces w);
  ioret ns.

(** likenamespace.go:71-75 Rename, followed by the receive from the channel it
    returned (namespaceservice.go:169): the channel is nil, and receiving from a
    nil channel blocks forever. *)
Definition receive_nil_channel : io svc (option err) := fun s => (s, Hang).
Definition rename_and_wait (i : Z) (name : ns_name) : io svc (option err) :=
  run (assign i (set_name name));
  receive_nil_channel.

(** namespaceservice.go:158-178 UpdateNamespace *)
Definition update_namespace (w : wfate) (name : ns_name) (dto : update_request) : io svc lns :=
  do found <- get_namespace_by_name name;
  match found with
  | None => iofail (EMsg "namespace not found")
  | Some i =>
    do ns <- deref i;
    do taken <- (if bool_decide (ln_name ns = ur_name dto) then ioret false
                 else do j <- get_namespace_index_by_name (ur_name dto); ioret (0 <=? j));
    if taken : bool then iofail (EMsg "namespace name is already taken") else
    do e <- rename_and_wait i (ur_name dto);
    match e with
    | Some e => iofail e
    | None =>
      run (assign i (set_dislike (ur_dislike dto)));
      run (assign i (set_max (ur_max dto)));
      run (save_namespaces w);
      deref i
    end
  end.

(** likenamespace.go:208-211 Stop: close the action channel; closing a closed
    channel panics. *)
Definition stop_namespace (i : Z) : io svc unit :=
  do x <- deref i;
  if ln_closed x then iolift Panic else assign i set_closed.

(** namespaceservice.go:180-193 DeleteNamespace *)
Definition delete_namespace (w : wfate) (name : ns_name) : io svc unit :=
  do index <- get_namespace_index_by_name name;
  if index <? 0 then iofail (EMsg "no namespace") else
  run (stop_namespace index);
  do x <- (fun s => (s, at_index (sv_list s) index));
  do l <- (fun s => (s, remove_at (sv_list s) index));
  run (fun s => (set_gone x (set_list l s), Ret tt));
  save_namespaces w.

(** namespaceservice.go:74-79 Start.  [start] is likeNamespace.Start
    (likenamespace.go:155-205, see LikeStart.v), acting on the rest of the world [W];
    its error is ignored, calling it on a nil interface panics. *)
Fixpoint start_each {W} (start : lns -> io W unit) (l : list (option lns)) : io W unit := fun w =>
  match l with
  | [] => (w, Ret tt)
  | None :: _ => (w, Panic)
  | Some x :: l' =>
    match start x w with
    | (w', Panic) => (w', Panic)
    | (w', Hang) => (w', Hang)
    | (w', Ret _) | (w', Err _) => start_each start l' w'
    end
  end.

(** The same when only the outcomes matter. *)
Definition start_all (start : lns -> outcome unit) (l : list (option lns)) : outcome unit :=
  snd (start_each (fun x (w : unit) => (w, start x)) l tt).

(** main.go:21-27: what happens before the server listens.  A load error is only
    logged. *)
Definition boot (start : lns -> outcome unit) (rec_path : list byte) (disk : option (list byte))
  : svc * outcome unit :=
  let s := fst (load_namespaces (new_service rec_path disk)) in
  (s, start_all start (sv_list s)).
