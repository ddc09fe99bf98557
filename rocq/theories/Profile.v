(** Model of internal/domain/profile.go (the set operations; similarity is in
    Similarity.v).  Slices are lists; methods that mutate return the new value. *)
From Verif Require Import Base Arrays.

(** profile.go:5-9 *)
Definition item_disliked : Z := -1.
Definition item_unknown : Z := 0.
Definition item_liked : Z := 1.

(** profile.go:12-21 Profile *)
Record profile := Profile {
  p_user : Z;
  p_likes : list Z;
  p_dislikes : list Z
}.

(** profile.go:24-30 NewProfile *)
Definition new_profile (user : Z) : profile := Profile user [] [].

(** helpers.BinaryIndexOf at T = uint64 *)
Definition index_u64 (h : list Z) (x : Z) : outcome Z := binary_index_of Z.eqb Z.ltb h x.

(** profile.go:34-42 QualifyItem *)
Definition qualify_item (p : profile) (item : Z) : outcome Z :=
  obind (index_u64 (p_likes p) item) (fun i =>
  if 0 <=? i then Ret item_liked
  else obind (index_u64 (p_dislikes p) item) (fun j =>
  if 0 <=? j then Ret item_disliked else Ret item_unknown)).

(** profile.go:51-56 Unlike *)
Definition unlike (p : profile) (item : Z) : outcome profile :=
  obind (index_u64 (p_likes p) item) (fun index =>
  if 0 <=? index then
    obind (remove_saving_order (p_likes p) index) (fun l =>
    Ret (Profile (p_user p) l (p_dislikes p)))
  else Ret p).

(** profile.go:65-70 Undislike *)
Definition undislike (p : profile) (item : Z) : outcome profile :=
  obind (index_u64 (p_dislikes p) item) (fun index =>
  if 0 <=? index then
    obind (remove_saving_order (p_dislikes p) index) (fun l =>
    Ret (Profile (p_user p) (p_likes p) l))
  else Ret p).

(** profile.go:45-48 Like *)
Definition like (p : profile) (item : Z) : outcome profile :=
  obind (put_saving_order U64 (p_likes p) item) (fun l =>
  undislike (Profile (p_user p) l (p_dislikes p)) item).

(** profile.go:59-62 Dislike *)
Definition dislike (p : profile) (item : Z) : outcome profile :=
  obind (put_saving_order U64 (p_dislikes p) item) (fun l =>
  unlike (Profile (p_user p) (p_likes p) l) item).

(** profile.go:73-76 RemoveItem *)
Definition remove_item (p : profile) (item : Z) : outcome profile :=
  obind (unlike p item) (fun p' => undislike p' item).

(** One API call on a profile, and a whole history of calls. *)
Inductive profile_op :=
| OLike (item : Z) | OUnlike (item : Z) | ODislike (item : Z)
| OUndislike (item : Z) | ORemoveItem (item : Z).

Definition op_item (o : profile_op) : Z :=
  match o with
  | OLike x | OUnlike x | ODislike x | OUndislike x | ORemoveItem x => x
  end.

Definition run_profile_op (p : profile) (o : profile_op) : outcome profile :=
  match o with
  | OLike x => like p x
  | OUnlike x => unlike p x
  | ODislike x => dislike p x
  | OUndislike x => undislike p x
  | ORemoveItem x => remove_item p x
  end.

Definition run_profile (p : profile) (ops : list profile_op) : outcome profile :=
  fold_left (fun o op => obind o (fun p => run_profile_op p op)) ops (Ret p).
