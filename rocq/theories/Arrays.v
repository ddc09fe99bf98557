(** Model of internal/helpers/arrays.go.

    A slice is a list; out-of-range indexing is [Panic].  The in-place effect on
    the backing array is modelled separately (SliceHeap.v).  Element types: the
    order-only search is generic; the arithmetic functions are modelled for every
    Go integer type [t : inttype]; the float instances are in ArraysFloat.v. *)
From Verif Require Import Base.

(** arrays.go:28-35 IndexOf *)
Fixpoint index_of_from {T} (eqb : T -> T -> bool) (i : Z) (h : list T) (x : T) : Z :=
  match h with
  | [] => -1
  | v :: h' => if eqb v x then i else index_of_from eqb (i + 1) h' x
  end.
Definition index_of {T} (eqb : T -> T -> bool) (h : list T) (x : T) : Z :=
  index_of_from eqb 0 h x.

(** arrays.go:49-66, the loop of BinaryIndexOf. *)
Fixpoint bin_loop {T} (eqb ltb : T -> T -> bool) (fuel : nat)
    (h : list T) (x : T) (a b : nat) : outcome Z :=
  match fuel with
  | O => Hang
  | S fuel =>
    if (a <? b)%nat then
      let m := ((a + b) / 2)%nat in
      match h !! m with
      | None => Panic
      | Some hm =>
        if eqb x hm then Ret (Z.of_nat m)
        else if ltb x hm then
          if (b =? m)%nat then Ret (-1) else bin_loop eqb ltb fuel h x a m
        else
          if (a =? m)%nat then Ret (-1) else bin_loop eqb ltb fuel h x m b
      end
    else Ret (-1)
  end.

(** arrays.go:38-67 BinaryIndexOf *)
Definition binary_index_of {T} (eqb ltb : T -> T -> bool) (h : list T) (x : T)
  : outcome Z :=
  match h with
  | [] => Ret (-1)
  | _ =>
    let b := (length h - 1)%nat in
    match h !! b, h !! 0%nat with
    | Some hb, Some ha =>
      if eqb hb x then Ret (Z.of_nat b)
      else if eqb ha x then Ret 0
      else bin_loop eqb ltb (S (length h)) h x 0 b
    | _, _ => Panic
    end
  end.

(** arrays.go:70-75 Deviation; the subtraction wraps at the width of the type. *)
Definition deviation (t : inttype) (a b : Z) : Z :=
  if a <? b then wrap t (b - a) else wrap t (a - b).

(** arrays.go:93-114, the loop of BinaryIndexOfClosest. *)
Fixpoint closest_loop (t : inttype) (fuel : nat) (h : list Z) (x : Z)
    (a b : nat) (minDIndex : nat) (minD : Z) : outcome Z :=
  match fuel with
  | O => Hang
  | S fuel =>
    if (a <? b)%nat then
      let m := ((a + b) / 2)%nat in
      match h !! m with
      | None => Panic
      | Some hm =>
        if x =? hm then Ret (Z.of_nat m)
        else
          let d := deviation t hm x in
          let '(minDIndex, minD) :=
            if d <? minD then (m, d) else (minDIndex, minD) in
          if x <? hm then
            if (b =? m)%nat then Ret (Z.of_nat minDIndex)
            else closest_loop t fuel h x a m minDIndex minD
          else
            if (a =? m)%nat then Ret (Z.of_nat minDIndex)
            else closest_loop t fuel h x m b minDIndex minD
      end
    else Ret (Z.of_nat minDIndex)
  end.

(** arrays.go:79-115 BinaryIndexOfClosest *)
Definition binary_index_of_closest (t : inttype) (h : list Z) (x : Z) : outcome Z :=
  match h with
  | [] => Ret (-1)
  | _ =>
    let b := (length h - 1)%nat in
    match h !! 0%nat, h !! b with
    | Some ha, Some hb =>
      let aD := deviation t ha x in
      let bD := deviation t hb x in
      let '(minDIndex, minD) := if bD <? aD then (b, bD) else (0%nat, aD) in
      if minD =? 0 then Ret (Z.of_nat minDIndex)
      else closest_loop t (S (length h)) h x 0 b minDIndex minD
    | _, _ => Panic
    end
  end.

(** arrays.go:119-122 Remove: overwrite with the last element, drop the last slot. *)
Definition remove_at {T} (h : list T) (index : Z) : outcome (list T) :=
  match last h with
  | None => Panic
  | Some l =>
    if (0 <=? index) && (index <? Z.of_nat (length h)) then
      Ret (take (length h - 1) (<[Z.to_nat index := l]> h))
    else Panic
  end.

(** arrays.go:126-128 RemoveSavingOrder: append(h[:i], h[i+1:]...) *)
Definition remove_saving_order {T} (h : list T) (index : Z) : outcome (list T) :=
  if (0 <=? index) && (index + 1 <=? Z.of_nat (length h)) then
    Ret (take (Z.to_nat index) h ++ drop (Z.to_nat (index + 1)) h)
  else Panic.

(** arrays.go:131-138 Insert: append(h[:i+1], h[i:]...) then h[i] = v *)
Definition insert_at {T} (h : list T) (index : Z) (value : T) : outcome (list T) :=
  if Z.of_nat (length h) =? index then Ret (h ++ [value])
  else if (0 <=? index) && (index <? Z.of_nat (length h)) then
    Ret (<[Z.to_nat index := value]>
           (take (Z.to_nat (index + 1)) h ++ drop (Z.to_nat index) h))
  else Panic.

(** h[index] with a Go int index. *)
Definition at_index {T} (h : list T) (index : Z) : outcome T :=
  if index <? 0 then Panic
  else match h !! Z.to_nat index with Some v => Ret v | None => Panic end.

(** arrays.go:142-151 InsertSavingOrder *)
Definition insert_saving_order (t : inttype) (h : list Z) (value : Z)
  : outcome (list Z) :=
  match h with
  | [] => Ret (h ++ [value])
  | _ =>
    obind (binary_index_of_closest t h value) (fun index =>
    obind (at_index h index) (fun hi =>
    if hi <=? value then insert_at h (index + 1) value
    else insert_at h index value))
  end.

(** arrays.go:156-168 PutSavingOrder *)
Definition put_saving_order (t : inttype) (h : list Z) (value : Z)
  : outcome (list Z) :=
  match h with
  | [] => Ret (h ++ [value])
  | _ =>
    obind (binary_index_of_closest t h value) (fun index =>
    obind (at_index h index) (fun hi =>
    if value =? hi then Ret h
    else if hi <? value then insert_at h (index + 1) value
    else insert_at h index value))
  end.
