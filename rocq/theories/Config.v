(** Model of internal/api/shard/config.go, with the parts of strconv it uses. *)
From Verif Require Import Base.

(** config.go:12-15 *)
Record config := Config { cf_host : list byte; cf_port : Z }.

(** config.go:8-9 *)
Definition default_host : list byte := ascii_bytes "localhost".
Definition default_port : Z := 8080.

(** strconv.Atoi: an optional sign, then only decimal digits, at least one, and a
    value of [int].  (strconv detects overflow while accumulating; here the exact
    value is accumulated and tested.) *)
Fixpoint atoi_digits (acc : Z) (s : list byte) : option Z :=
  match s with
  | [] => Some acc
  | c :: s' => if (48 <=? c) && (c <=? 57) then atoi_digits (acc * 10 + (c - 48)) s' else None
  end.

Definition atoi (s : list byte) : option Z :=
  let '(neg, ds) :=
    match s with
    | 45 :: s' => (true, s')
    | 43 :: s' => (false, s')
    | _ => (false, s)
    end in
  match ds with
  | [] => None
  | _ =>
    match atoi_digits 0 ds with
    | None => None
    | Some n =>
      let z := if neg : bool then - n else n in
      if (tmin I64 <=? z) && (z <=? tmax I64) then Some z else None
    end
  end.

(** strconv.Itoa: the digits, least significant first, then the sign. *)
Fixpoint itoa_digits (fuel : nat) (n : Z) (acc : list byte) : list byte :=
  match fuel with
  | O => acc
  | S fuel =>
    let acc := (48 + n mod 10) :: acc in
    if n <? 10 then acc else itoa_digits fuel (n / 10) acc
  end.

(** 20 digits are enough for every [int]. *)
Definition itoa (z : Z) : list byte :=
  if z <? 0 then 45 :: itoa_digits 20 (- z) [] else itoa_digits 20 z [].

(** config.go:20-41 NewConfigFromEnv.  os.Getenv returns "" for an unset
    variable. *)
Definition new_config_from_env (rec_host rec_port : list byte) (defaults : option config)
  : config :=
  let host :=
    match rec_host with
    | [] => match defaults with Some d => cf_host d | None => default_host end
    | _ => rec_host
    end in
  let default := match defaults with Some d => cf_port d | None => default_port end in
  let port :=
    match atoi rec_port with
    | None => default
    | Some p => if p <? 0 then default else p
    end in
  Config host port.

(** config.go:44-46 GetHostPort *)
Definition get_host_port (c : config) : list byte :=
  cf_host c ++ ascii_bytes ":" ++ itoa (cf_port c).
