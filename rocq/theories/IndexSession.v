(** Executions of the index storage: every way of getting an open index without I/O
    errors, with the history of what was done to it. *)
From Verif Require Import Base GoIO SpecLock SpecIndex Index.

Definition i_call (e : ievent) (s : istore) : istore :=
  match e with IvPut k v => i_put k v s | IvRemove k => i_remove k s end.

(** [bsz], [rsz]: the buffer sizes of bufio; [c]: whether a closer is set. *)
Inductive isession (bsz rsz : nat) (c : bool) : list ievent -> istore -> Prop :=
(** An empty file was opened. *)
| isession_new f f' s :
    usable f -> f_data f = [] -> i_open bsz rsz c f = (f', Ret s) -> isession bsz rsz c [] s
(** A well-formed file was opened; whatever follows the announced pairs is ignored. *)
| isession_image f f' s l tail :
    usable f -> Forall (fun x => is_u64 (fst x) /\ is_u64 (snd x)) l ->
    f_data f = index_image 0 l ++ tail ->
    i_open bsz rsz c f = (f', Ret s) ->
    isession bsz rsz c (map (fun x => IvPut (fst x) (snd x)) l) s
(** Put or Remove was called. *)
| isession_call h s e :
    isession bsz rsz c h s -> iv_typed e -> isession bsz rsz c (h ++ [e]) (i_call e s)
(** The index was closed and its file opened again. *)
| isession_reopen h s sh s' f f' t :
    isession bsz rsz c h s -> i_close bsz sh s = (s', Ret tt) ->
    usable f -> f_data f = f_data (is_file s') -> i_open bsz rsz c f = (f', Ret t) ->
    isession bsz rsz c h t.
