(** Model of the float instances of internal/helpers/arrays.go: the type sets there
    (arrays.go:15-25) contain float32 and float64.  Arrays.v has the integer
    instances.

    The functions are written once for any type with the comparisons and the
    subtraction that Go's operators stand for; [closest_int] and the like in
    ArraysFloatFacts.v show that the integer instances are those of Arrays.v. *)
From Flocq Require Import Core.Core IEEE754.BinarySingleNaN.
From Verif Require Import Base Arrays Similarity.

(** What ==, <, >= and the function Deviation are on the type, and the constant 0. *)
Record arith (T : Type) := Arith {
  ar_eq : T -> T -> bool; ar_lt : T -> T -> bool; ar_ge : T -> T -> bool; ar_dev : T -> T -> T; ar_zero : T
}.
Arguments ar_eq {T}. Arguments ar_lt {T}. Arguments ar_ge {T}. Arguments ar_dev {T}. Arguments ar_zero {T}.

(** arrays.go:93-114, the loop of BinaryIndexOfClosest. *)
Fixpoint closest_loop_g {T} (A : arith T) (fuel : nat) (h : list T) (x : T)
    (a b : nat) (minDIndex : nat) (minD : T) : outcome Z :=
  match fuel with
  | O => Hang
  | S fuel =>
    if (a <? b)%nat then
      let m := ((a + b) / 2)%nat in
      match h !! m with
      | None => Panic
      | Some hm =>
        if ar_eq A x hm then Ret (Z.of_nat m)
        else
          let d := ar_dev A hm x in
          let '(minDIndex, minD) :=
            if ar_lt A d minD then (m, d) else (minDIndex, minD) in
          if ar_lt A x hm then
            if (b =? m)%nat then Ret (Z.of_nat minDIndex)
            else closest_loop_g A fuel h x a m minDIndex minD
          else
            if (a =? m)%nat then Ret (Z.of_nat minDIndex)
            else closest_loop_g A fuel h x m b minDIndex minD
      end
    else Ret (Z.of_nat minDIndex)
  end.

(** arrays.go:79-115 BinaryIndexOfClosest *)
Definition closest_g {T} (A : arith T) (h : list T) (x : T) : outcome Z :=
  match h with
  | [] => Ret (-1)
  | _ =>
    let b := (length h - 1)%nat in
    match h !! 0%nat, h !! b with
    | Some ha, Some hb =>
      let aD := ar_dev A ha x in
      let bD := ar_dev A hb x in
      let '(minDIndex, minD) := if ar_lt A bD aD then (b, bD) else (0%nat, aD) in
      if ar_eq A minD (ar_zero A) then Ret (Z.of_nat minDIndex)
      else closest_loop_g A (S (length h)) h x 0 b minDIndex minD
    | _, _ => Panic
    end
  end.

(** arrays.go:142-151 InsertSavingOrder *)
Definition insert_saving_order_g {T} (A : arith T) (h : list T) (value : T) : outcome (list T) :=
  match h with
  | [] => Ret (h ++ [value])
  | _ =>
    obind (closest_g A h value) (fun index =>
    obind (at_index h index) (fun hi =>
    if ar_ge A value hi then insert_at h (index + 1) value
    else insert_at h index value))
  end.

(** arrays.go:156-168 PutSavingOrder *)
Definition put_saving_order_g {T} (A : arith T) (h : list T) (value : T) : outcome (list T) :=
  match h with
  | [] => Ret (h ++ [value])
  | _ =>
    obind (closest_g A h value) (fun index =>
    obind (at_index h index) (fun hi =>
    if ar_eq A value hi then Ret h
    else if ar_lt A hi value then insert_at h (index + 1) value
    else insert_at h index value))
  end.

(** The integer types of Arrays.v. *)
Definition int_arith (t : inttype) : arith Z :=
  Arith Z Z.eqb Z.ltb (fun x y => y <=? x) (deviation t) 0.

Section Float.
  (** float32: 24, 128; float64: 53, 1024. *)
  Context (prec emax : Z) {Hp : Prec_gt_0 prec} {He : Prec_lt_emax prec emax}.

  (** arrays.go:70-75 Deviation: differences are rounded to nearest, ties to even. *)
  Definition deviation_f (a b : binary_float prec emax) : binary_float prec emax :=
    if Bltb a b then Bminus mode_NE b a else Bminus mode_NE a b.

  Definition float_arith : arith (binary_float prec emax) :=
    Arith _ Beqb Bltb (fun x y => Bleb y x) deviation_f (B754_zero false).
End Float.

#[global] Instance prec53 : Prec_gt_0 53 := eq_refl.
#[global] Instance prec53_emax : Prec_lt_emax 53 1024 := eq_refl.
