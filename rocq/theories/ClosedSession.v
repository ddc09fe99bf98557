(** What is done to a storage after it has been closed: any calls, whatever they return.
    internal/infra/delta/storage.go:94-186, internal/infra/index/storage.go:85-178. *)
From Verif Require Import Base GoIO Delta Index.

Inductive dlater := DLAdd (op user item : Z) | DLFlush (sh : new_order) | DLClose (sh : new_order).

(** The storage afterwards and what each Flush and Close returned. *)
Fixpoint d_later (bsz : nat) (cs : list dlater) (s : dstore) : dstore * list (outcome unit) :=
  match cs with
  | [] => (s, [])
  | DLAdd op user item :: cs => d_later bsz cs (d_add op user item s)
  | DLFlush sh :: cs =>
    let '(s, o) := d_flush bsz sh s in let '(s, l) := d_later bsz cs s in (s, o :: l)
  | DLClose sh :: cs =>
    let '(s, o) := d_close bsz sh s in let '(s, l) := d_later bsz cs s in (s, o :: l)
  end.

Inductive ilater := ILPut (id index : Z) | ILRemove (id : Z) | ILClose (sh : index_order).

(** The storage afterwards and what each Close returned. *)
Fixpoint i_later (bsz : nat) (cs : list ilater) (s : istore) : istore * list (outcome unit) :=
  match cs with
  | [] => (s, [])
  | ILPut id index :: cs => i_later bsz cs (i_put id index s)
  | ILRemove id :: cs => i_later bsz cs (i_remove id s)
  | ILClose sh :: cs =>
    let '(s, o) := i_close bsz sh s in let '(s, l) := i_later bsz cs s in (s, o :: l)
  end.
