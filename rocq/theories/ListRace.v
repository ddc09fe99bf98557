(** GET /api/v1/namespaces while other requests change the list: GetNamespaces hands out
    the slice of the service itself (namespaceservice.go:116-118), and List reads it
    element by element (dto/namespaceresponse.go:19-25) without a lock.

    A namespace is the address of its struct, a positive number; 0 is nil.
    Simplifications: slice headers are read and written at once; a deletion is not
    interrupted; one listing is followed (others only read). *)
From Verif Require Import Base Arrays SliceHeap.

Record lstate := LState {
  l_mem : mem Z;
  l_head : slice;                        (* NamespaceService.namespaces *)
  l_pend : list (slice * Z);             (* creations that have read the header, their namespaces *)
  l_used : list Z;                       (* addresses given to namespaces *)
  l_read : option (slice * list Z)       (* the listing: its slice, what it has read *)
}.

(** namespaceservice.go:46-52: make([]Namespace, 0) *)
Definition l_init : lstate := LState ∅ empty_slice [] [] None.

Inductive levent :=
| LLoad (p : Z)      (* line 150: append is about to start; [p] is the new namespace *)
| LStore (c : nat)   (* line 150: append wrote the element, the header is stored *)
| LDelete (i : Z)    (* line 188: helpers.Remove *)
| LList              (* line 117 *)
| LRead.             (* namespaceresponse.go:22: the next namespaces[i] *)

(** [None]: the event cannot happen. *)
Definition l_step (grow : nat -> nat -> nat) (s : lstate) (e : levent) : option lstate :=
  match e with
  | LLoad p =>
    if (0 <? p) && negb (bool_decide (p ∈ l_used s)) then
      Some (LState (l_mem s) (l_head s) (l_pend s ++ [(l_head s, p)]) (p :: l_used s) (l_read s))
    else None
  | LStore c =>
    match l_pend s !! c with
    | Some (h, p) =>
      let '(m, h') := append_slice 0 grow (l_mem s) h [p] in
      Some (LState m h' (delete c (l_pend s)) (l_used s) (l_read s))
    | None => None
    end
  | LDelete i =>
    match m_remove (l_mem s) (l_head s) i with
    | Ret (m, h') => Some (LState m h' (l_pend s) (l_used s) (l_read s))
    | _ => None
    end
  | LList =>
    match l_read s with
    | None => Some (LState (l_mem s) (l_head s) (l_pend s) (l_used s) (Some (l_head s, [])))
    | Some _ => None
    end
  | LRead =>
    match l_read s with
    | Some (h, got) =>
      match at_index (view (l_mem s) h) (Z.of_nat (length got)) with
      | Ret x => Some (LState (l_mem s) (l_head s) (l_pend s) (l_used s) (Some (h, got ++ [x])))
      | _ => None
      end
    | None => None
    end
  end.

(** The states an execution goes through, after each event. *)
Fixpoint l_run (grow : nat -> nat -> nat) (s : lstate) (es : list levent) : option (list lstate) :=
  match es with
  | [] => Some []
  | e :: es' =>
    match l_step grow s e with
    | Some s' => match l_run grow s' es' with Some l => Some (s' :: l) | None => None end
    | None => None
    end
  end.

Definition l_listed (s : lstate) : list Z := view (l_mem s) (l_head s).
