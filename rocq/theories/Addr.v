(** Model of what the server does with its address: application.go:31-36 hands
    GetHostPort to http.Server, whose ListenAndServe (application.go:54) hands it to
    net.Listen, which takes it apart with net.SplitHostPort (Go 1.19, net/ipsock.go). *)
From Verif Require Import Base Config.

(** bytealg.IndexByteString *)
Fixpoint index_byte (c : byte) (s : list byte) : option nat :=
  match s with
  | [] => None
  | b :: s => if b =? c then Some O else S <$> index_byte c s
  end.

(** net/parse.go last *)
Fixpoint last_index (c : byte) (s : list byte) : option nat :=
  match s with
  | [] => None
  | b :: s =>
    match last_index c s with
    | Some i => Some (S i)
    | None => if b =? c then Some O else None
    end
  end.

Definition has_byte (c : byte) (s : list byte) : bool :=
  match index_byte c s with Some _ => true | None => false end.

(** net.SplitHostPort.  58 is ':', 91 is '[', 93 is ']'. *)
Definition split_host_port (s : list byte) : outcome (list byte * list byte) :=
  match last_index 58 s with
  | None => Err (EMsg "missing port in address")
  | Some i =>
    (** the unwanted brackets, then the port *)
    let rest host j k :=
      if has_byte 91 (drop j s) then Err (EMsg "unexpected '[' in address")
      else if has_byte 93 (drop k s) then Err (EMsg "unexpected ']' in address")
      else Ret (host, drop (S i) s) in
    if match s with b :: _ => b =? 91 | [] => false end then
      match index_byte 93 s with
      | None => Err (EMsg "missing ']' in address")
      | Some e =>
        if (S e =? length s)%nat then Err (EMsg "missing port in address")
        else if (S e =? i)%nat then rest (take (e - 1) (drop 1 s)) 1%nat (S e)
        else if match s !! S e with Some b => b =? 58 | None => false end
        then Err (EMsg "too many colons in address")
        else Err (EMsg "missing port in address")
      end
    else
      let host := take i s in
      if has_byte 58 host then Err (EMsg "too many colons in address")
      else rest host O O
  end.

(** The host and port that the shard listens on, or the error of Listen. *)
Definition listen_on (rec_host rec_port : list byte) (defaults : option config) : outcome (list byte * list byte) :=
  split_host_port (get_host_port (new_config_from_env rec_host rec_port defaults)).
