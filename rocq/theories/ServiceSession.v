(** Sequences of calls to the namespace service: a shard that booted and then
    served requests one after the other. *)
From Verif Require Import Base GoIO Naming Service Api.

(** Calls of the exported methods, each with the fate of its save. *)
Inductive sreq :=
| SCreate (w : wfate) (d : create_request)
| SUpdate (w : wfate) (name : ns_name) (d : update_request)
| SDelete (w : wfate) (name : ns_name)
| SHttp (q : request).

(** The state left behind, whatever the call returned (a call that blocks forever
    leaves its goroutine behind, a panic in a handler is caught). *)
Definition after (r : sreq) (s : svc) : svc :=
  match r with
  | SCreate w d => fst (create_namespace w d s)
  | SUpdate w n d => fst (update_namespace w n d s)
  | SDelete w n => fst (delete_namespace w n s)
  | SHttp q => fst (serve q s)
  end.

(** States of a running shard. *)
Inductive running : svc -> Prop :=
| running_boot start env disk s :
    boot start env disk = (s, Ret tt) -> running s
| running_after r s : running s -> running (after r s).

Definition names (s : svc) : list ns_name :=
  omap (fun x => ln_name <$> x) (sv_list s).
