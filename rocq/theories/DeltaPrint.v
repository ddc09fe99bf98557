(** What Flush and Close of the delta storage print to the standard output. *)
From Verif Require Import Base GoIO Delta Config JsonCodec.

(** fmt of a sequence: the elements with a space in between. *)
Fixpoint spaced (l : list (list byte)) : list byte :=
  match l with
  | [] => []
  | [x] => x
  | x :: l => x ++ ascii_bytes " " ++ spaced l
  end.

(** storage.go:11-14, as [%v] shows it (the fields are not exported, so [op] is shown
    as the number it is). *)
Definition show_delta (d : item_delta) : list byte :=
  ascii_bytes "{" ++ format_uint (id_item d) ++ ascii_bytes " " ++ format_uint (id_op d) ++ ascii_bytes "}".
Definition show_deltas (l : list item_delta) : list byte :=
  ascii_bytes "[" ++ spaced (map show_delta l) ++ ascii_bytes "]".
Definition show_user (x : Z * list item_delta) : list byte :=
  format_uint (fst x) ++ ascii_bytes ":" ++ show_deltas (snd x).

(** fmt prints maps in the order of their keys (internal/fmtsort). *)
Definition by_user (x y : Z * list item_delta) : Prop := fst x <= fst y.
Global Instance by_user_dec : RelDecision by_user.
Proof. intros x y. unfold by_user. apply _. Defined.
Definition show_map (m : gmap Z (list item_delta)) : list byte :=
  ascii_bytes "map[" ++ spaced (map show_user (merge_sort by_user (map_to_list m))) ++ ascii_bytes "]".

(** storage.go:17-31, 38: [fmt.Println(s)], [s] a pointer to the struct.  [addr]: the
    last two fields, the addresses of the file and of the protocol, as they are shown. *)
Definition show_storage (addr : list byte) (s : dstore) : list byte :=
  ascii_bytes "&{" ++ show_map (ds_cache s) ++ ascii_bytes " " ++ show_map (ds_new s) ++ ascii_bytes " " ++
  itoa (ds_total s) ++ ascii_bytes " " ++ itoa (ds_unflushed s) ++ ascii_bytes " " ++ addr ++
  ascii_bytes "}" ++ [10].

(** storage.go:37-38, 94-104 Flush, with what was printed so far.  (Close begins with a
    Flush, storage.go:109, and prints nothing more.) *)
Definition d_flush_out (addr : list byte) (bsz : nat) (sh : new_order) : io (dstore * list byte) unit :=
  fun '(s, out) => on_fst (d_flush bsz sh) (s, out ++ show_storage addr s).

(** Add or Flush. *)
Definition d_call_out (addr : list byte) (bsz : nat) (c : dcall) : io (dstore * list byte) unit :=
  match c with
  | DAdd _ _ _ => on_fst (d_call bsz c)
  | DFlush sh => d_flush_out addr bsz sh
  end.
Fixpoint d_calls_out (addr : list byte) (bsz : nat) (cs : list dcall) : io (dstore * list byte) unit :=
  match cs with
  | [] => ioret tt
  | c :: cs => run d_call_out addr bsz c; d_calls_out addr bsz cs
  end.
