(** The searches of internal/helpers/arrays.go:38-115 once more, with a counter of the
    elements looked at: one for each of the two ends and one for each turn of the loop.
    ArraysCostFacts.v proves that leaving the counter out gives the functions of Arrays.v. *)
From Verif Require Import Base Arrays.

(** arrays.go:49-66, the loop of BinaryIndexOf; [k]: elements looked at before. *)
Fixpoint bin_loop_cost {T} (eqb ltb : T -> T -> bool) (fuel : nat)
    (h : list T) (x : T) (a b k : nat) : outcome Z * nat :=
  match fuel with
  | O => (Hang, k)
  | S fuel =>
    if (a <? b)%nat then
      let m := ((a + b) / 2)%nat in
      match h !! m with
      | None => (Panic, k)
      | Some hm =>
        if eqb x hm then (Ret (Z.of_nat m), S k)
        else if ltb x hm then
          if (b =? m)%nat then (Ret (-1), S k) else bin_loop_cost eqb ltb fuel h x a m (S k)
        else
          if (a =? m)%nat then (Ret (-1), S k) else bin_loop_cost eqb ltb fuel h x m b (S k)
      end
    else (Ret (-1), k)
  end.

(** arrays.go:38-67 BinaryIndexOf *)
Definition binary_index_of_cost {T} (eqb ltb : T -> T -> bool) (h : list T) (x : T)
  : outcome Z * nat :=
  match h with
  | [] => (Ret (-1), O)
  | _ =>
    let b := (length h - 1)%nat in
    match h !! b, h !! 0%nat with
    | Some hb, Some ha =>
      if eqb hb x then (Ret (Z.of_nat b), 1%nat)
      else if eqb ha x then (Ret 0, 2%nat)
      else bin_loop_cost eqb ltb (S (length h)) h x 0 b 2
    | _, _ => (Panic, O)
    end
  end.

(** arrays.go:93-114, the loop of BinaryIndexOfClosest. *)
Fixpoint closest_loop_cost (t : inttype) (fuel : nat) (h : list Z) (x : Z)
    (a b : nat) (minDIndex : nat) (minD : Z) (k : nat) : outcome Z * nat :=
  match fuel with
  | O => (Hang, k)
  | S fuel =>
    if (a <? b)%nat then
      let m := ((a + b) / 2)%nat in
      match h !! m with
      | None => (Panic, k)
      | Some hm =>
        if x =? hm then (Ret (Z.of_nat m), S k)
        else
          let d := deviation t hm x in
          let '(minDIndex, minD) :=
            if d <? minD then (m, d) else (minDIndex, minD) in
          if x <? hm then
            if (b =? m)%nat then (Ret (Z.of_nat minDIndex), S k)
            else closest_loop_cost t fuel h x a m minDIndex minD (S k)
          else
            if (a =? m)%nat then (Ret (Z.of_nat minDIndex), S k)
            else closest_loop_cost t fuel h x m b minDIndex minD (S k)
      end
    else (Ret (Z.of_nat minDIndex), k)
  end.

(** arrays.go:79-115 BinaryIndexOfClosest *)
Definition binary_index_of_closest_cost (t : inttype) (h : list Z) (x : Z) : outcome Z * nat :=
  match h with
  | [] => (Ret (-1), O)
  | _ =>
    let b := (length h - 1)%nat in
    match h !! 0%nat, h !! b with
    | Some ha, Some hb =>
      let aD := deviation t ha x in
      let bD := deviation t hb x in
      let '(minDIndex, minD) := if bD <? aD then (b, bD) else (0%nat, aD) in
      if minD =? 0 then (Ret (Z.of_nat minDIndex), 2%nat)
      else closest_loop_cost t (S (length h)) h x 0 b minDIndex minD 2
    | _, _ => (Panic, O)
    end
  end.
