(** Concurrent CreateNamespace calls: net/http runs every handler in its own
    goroutine and NamespaceService has no lock, so the calls interleave between
    their accesses to the shared list and the file.

    Simplifications: a slice header is read and written at once (the real data race
    may also tear it), and [append] makes a new list (sharing of the backing array
    is not modelled). *)
From Verif Require Import Base GoIO Similarity Naming Json Service.

(** Where a handler stands in namespaceservice.go:140-155 (and 102-113). *)
Inductive hstate :=
| HStart (d : create_request)               (* before line 143 *)
| HForged (ns : lns)                        (* after line 149, the name was free *)
| HAppended (l : list (option lns)) (ns : lns)  (* line 150: append evaluated, not stored *)
| HStored (ns : lns)                        (* line 150 done *)
| HMarshalled (data : list byte) (ns : lns) (* line 103 done *)
| HDone (r : outcome lns).

Inductive hstep : svc * hstate -> svc * hstate -> Prop :=
| hs_taken s d i :
    index_by_name 0 (sv_list s) (cr_name d) = Ret i -> 0 <= i ->
    hstep (s, HStart d) (s, HDone (Err (EMsg "namespace name is already taken")))
| hs_forge_fails s d i e :
    index_by_name 0 (sv_list s) (cr_name d) = Ret i -> i < 0 ->
    forge_namespace d = Err e ->
    hstep (s, HStart d) (s, HDone (Err e))
| hs_forge s d i ns :
    index_by_name 0 (sv_list s) (cr_name d) = Ret i -> i < 0 ->
    forge_namespace d = Ret ns ->
    hstep (s, HStart d) (s, HForged ns)
| hs_append s ns :
    hstep (s, HForged ns) (s, HAppended (sv_list s ++ [Some ns]) ns)
| hs_store s l ns :
    hstep (s, HAppended l ns) (set_list l s, HStored ns)
| hs_marshal s ns :
    hstep (s, HStored ns) (s, HMarshalled (marshal (sv_list s)) ns)
| hs_write s data ns :
    hstep (s, HMarshalled data ns) (set_json data s, HDone (Ret ns))
| hs_write_fails s data ns :
    hstep (s, HMarshalled data ns) (s, HDone (Err (EMsg "failed to write namespaces.json")))
| hs_write_part s data ns n :
    hstep (s, HMarshalled data ns)
          (set_json (take n data) s, HDone (Err (EMsg "failed to write namespaces.json"))).

(** One step of one handler. *)
Inductive cstep : svc * list hstate -> svc * list hstate -> Prop :=
| cs_handler s hs i h s' h' :
    hs !! i = Some h -> hstep (s, h) (s', h') ->
    cstep (s, hs) (s', <[i := h']> hs).

(** Any number of steps, in any order. *)
Inductive csteps : svc * list hstate -> svc * list hstate -> Prop :=
| csteps_refl c : csteps c c
| csteps_step c1 c2 c3 : cstep c1 c2 -> csteps c2 c3 -> csteps c1 c3.
