(** Slices with their backing arrays: internal/helpers/arrays.go and
    internal/domain/profile.go again, this time with the memory they share.

    Simplification: the elements of one slice are written at once (the goroutine
    that writes them is not interrupted; concurrency is in ListRace.v). *)
From Verif Require Import Base Arrays Profile.

(** The memory: backing arrays by identity.  The length of an array is fixed. *)
Notation mem T := (gmap nat (list T)).

(** A slice header: array, offset of the first element, length, capacity. *)
Record slice := Slice { sl_arr : nat; sl_off : nat; sl_len : nat; sl_cap : nat }.

Section heap.
Context {T : Type} (zero : T).

(** runtime.growslice chooses how much room a new array gets beyond what is needed:
    any function of the array and the need. *)
Context (grow : nat -> nat -> nat).

Definition arr (m : mem T) (id : nat) : list T := default [] (m !! id).

(** The elements of a slice, in order. *)
Definition view (m : mem T) (s : slice) : list T :=
  take (sl_len s) (drop (sl_off s) (arr m (sl_arr s))).

(** make([]T, 0), and the nil slice: no room, hence no array. *)
Definition empty_slice : slice := Slice 0 0 0 0.

(** Copies [vs] into the array of [s], from its element [i] on. *)
Definition store (m : mem T) (s : slice) (i : nat) (vs : list T) : mem T :=
  <[sl_arr s := list_inserts (sl_off s + i) vs (arr m (sl_arr s))]> m.

(** s[lo:hi] *)
Definition reslice (s : slice) (lo hi : Z) : outcome slice :=
  if (0 <=? lo) && (lo <=? hi) && (hi <=? Z.of_nat (sl_cap s)) then
    Ret (Slice (sl_arr s) (sl_off s + Z.to_nat lo) (Z.to_nat (hi - lo)) (sl_cap s - Z.to_nat lo))
  else Panic.

(** s[i] = v *)
Definition set_elem (m : mem T) (s : slice) (i : Z) (v : T) : outcome (mem T) :=
  if (0 <=? i) && (i <? Z.of_nat (sl_len s)) then Ret (store m s (Z.to_nat i) [v]) else Panic.

(** append(s, vs...): in place if there is room, otherwise into a new array.  The
    values are read before any is written, also when they lie in the same array
    (memmove). *)
Definition append_slice (m : mem T) (s : slice) (vs : list T) : mem T * slice :=
  let n := (sl_len s + length vs)%nat in
  if (n <=? sl_cap s)%nat then
    (store m s (sl_len s) vs, Slice (sl_arr s) (sl_off s) n (sl_cap s))
  else
    let id := fresh (dom m) in
    let room := grow id n in
    (<[id := view m s ++ vs ++ replicate room zero]> m, Slice id 0 n (n + room)).

(** arrays.go:119-122 Remove *)
Definition m_remove (m : mem T) (h : slice) (index : Z) : outcome (mem T * slice) :=
  obind (at_index (view m h) (Z.of_nat (sl_len h) - 1)) (fun l =>
  obind (set_elem m h index l) (fun m' =>
  obind (reslice h 0 (Z.of_nat (sl_len h) - 1)) (fun h' => Ret (m', h')))).

(** arrays.go:126-128 RemoveSavingOrder *)
Definition m_remove_saving_order (m : mem T) (h : slice) (index : Z) : outcome (mem T * slice) :=
  obind (reslice h 0 index) (fun l =>
  obind (reslice h (index + 1) (Z.of_nat (sl_len h))) (fun r =>
  Ret (append_slice m l (view m r)))).

(** arrays.go:131-138 Insert *)
Definition m_insert (m : mem T) (h : slice) (index : Z) (value : T) : outcome (mem T * slice) :=
  if Z.of_nat (sl_len h) =? index then Ret (append_slice m h [value])
  else
    obind (reslice h 0 (index + 1)) (fun l =>
    obind (reslice h index (Z.of_nat (sl_len h))) (fun r =>
    let '(m1, h1) := append_slice m l (view m r) in
    obind (set_elem m1 h1 index value) (fun m2 => Ret (m2, h1)))).
End heap.

(** The rest is for integer elements.  The searches only read: they are the functions of
    Arrays.v on the elements of the slice. *)

(** arrays.go:142-151 InsertSavingOrder *)
Definition m_insert_saving_order (grow : nat -> nat -> nat) (t : inttype) (m : mem Z) (h : slice)
    (value : Z) : outcome (mem Z * slice) :=
  if (sl_len h =? 0)%nat then Ret (append_slice 0 grow m h [value])
  else
    obind (binary_index_of_closest t (view m h) value) (fun index =>
    obind (at_index (view m h) index) (fun hi =>
    if hi <=? value then m_insert 0 grow m h (index + 1) value
    else m_insert 0 grow m h index value)).

(** arrays.go:156-168 PutSavingOrder *)
Definition m_put_saving_order (grow : nat -> nat -> nat) (t : inttype) (m : mem Z) (h : slice)
    (value : Z) : outcome (mem Z * slice) :=
  if (sl_len h =? 0)%nat then Ret (append_slice 0 grow m h [value])
  else
    obind (binary_index_of_closest t (view m h) value) (fun index =>
    obind (at_index (view m h) index) (fun hi =>
    if value =? hi then Ret (m, h)
    else if hi <? value then m_insert 0 grow m h (index + 1) value
    else m_insert 0 grow m h index value)).

(** ** Profiles *)

(** profile.go:12-21 Profile *)
Record mprofile := MProfile { mp_user : Z; mp_likes : slice; mp_dislikes : slice }.

(** profile.go:24-30 NewProfile *)
Definition m_new_profile (user : Z) : mprofile := MProfile user empty_slice empty_slice.

Section profile.
Context (grow : nat -> nat -> nat).

(** profile.go:34-42 QualifyItem *)
Definition m_qualify_item (m : mem Z) (p : mprofile) (item : Z) : outcome Z :=
  obind (index_u64 (view m (mp_likes p)) item) (fun i =>
  if 0 <=? i then Ret item_liked
  else obind (index_u64 (view m (mp_dislikes p)) item) (fun j =>
  if 0 <=? j then Ret item_disliked else Ret item_unknown)).

(** profile.go:51-56 Unlike *)
Definition m_unlike (m : mem Z) (p : mprofile) (item : Z) : outcome (mem Z * mprofile) :=
  obind (index_u64 (view m (mp_likes p)) item) (fun index =>
  if 0 <=? index then
    obind (m_remove_saving_order 0 grow m (mp_likes p) index) (fun '(m', l) =>
    Ret (m', MProfile (mp_user p) l (mp_dislikes p)))
  else Ret (m, p)).

(** profile.go:65-70 Undislike *)
Definition m_undislike (m : mem Z) (p : mprofile) (item : Z) : outcome (mem Z * mprofile) :=
  obind (index_u64 (view m (mp_dislikes p)) item) (fun index =>
  if 0 <=? index then
    obind (m_remove_saving_order 0 grow m (mp_dislikes p) index) (fun '(m', l) =>
    Ret (m', MProfile (mp_user p) (mp_likes p) l))
  else Ret (m, p)).

(** profile.go:45-48 Like *)
Definition m_like (m : mem Z) (p : mprofile) (item : Z) : outcome (mem Z * mprofile) :=
  obind (m_put_saving_order grow U64 m (mp_likes p) item) (fun '(m', l) =>
  m_undislike m' (MProfile (mp_user p) l (mp_dislikes p)) item).

(** profile.go:59-62 Dislike *)
Definition m_dislike (m : mem Z) (p : mprofile) (item : Z) : outcome (mem Z * mprofile) :=
  obind (m_put_saving_order grow U64 m (mp_dislikes p) item) (fun '(m', l) =>
  m_unlike m' (MProfile (mp_user p) (mp_likes p) l) item).

(** profile.go:73-76 RemoveItem *)
Definition m_remove_item (m : mem Z) (p : mprofile) (item : Z) : outcome (mem Z * mprofile) :=
  obind (m_unlike m p item) (fun '(m', p') => m_undislike m' p' item).

Definition m_run_op (m : mem Z) (p : mprofile) (o : profile_op) : outcome (mem Z * mprofile) :=
  match o with
  | OLike x => m_like m p x
  | OUnlike x => m_unlike m p x
  | ODislike x => m_dislike m p x
  | OUndislike x => m_undislike m p x
  | ORemoveItem x => m_remove_item m p x
  end.

(** ** A process with any number of profiles (what callers may do; not code of the
    repository): the [k]-th profile made is profile [k]. *)
Inductive pcall := PNew (user : Z) | POp (k : nat) (o : profile_op).

Definition m_call (s : mem Z * list mprofile) (c : pcall) : outcome (mem Z * list mprofile) :=
  let '(m, ps) := s in
  match c with
  | PNew u => Ret (m, ps ++ [m_new_profile u])
  | POp k o =>
    match ps !! k with
    | None => Panic
    | Some p => obind (m_run_op m p o) (fun '(m', p') => Ret (m', <[k := p']> ps))
    end
  end.

Definition m_run (s : mem Z * list mprofile) (cs : list pcall) : outcome (mem Z * list mprofile) :=
  fold_left (fun o c => obind o (fun s => m_call s c)) cs (Ret s).
End profile.
