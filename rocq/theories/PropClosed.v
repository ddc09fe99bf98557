(** Property C92: a closed storage saves nothing and says so. *)
From Verif Require Import Base GoIO Delta Index ClosedSession ClosedFacts IndexFacts.

Definition reports_error (o : outcome unit) : Prop := exists e, o = Err e.

(** * C92
    After a Close that succeeded, whatever is called, in whatever order and however
    often: the file is not changed, and each Flush and each Close returns an error, so
    that nothing handed to the storage after Close is said to be saved.  The storage
    that is closed is arbitrary, and reads and writes before Close may have failed. *)
Theorem C92_delta_closed :
  forall bsz sh s s' cs t l,
  d_close bsz sh s = (s', Ret tt) -> d_later bsz cs s' = (t, l) ->
  ds_file t = ds_file s' /\ Forall reports_error l.
Proof.
  intros bsz sh s s' cs t l Hc. apply d_close_closes in Hc. revert s' t l Hc.
  induction cs as [|c cs IH]; intros s' t l Hf; cbn [d_later]; [by intros [= <- <-]|].
  destruct c as [op u i|sh'|sh'].
  - intros H. apply IH in H; rewrite d_add_file in *; done.
  - destruct (d_flush_refused bsz sh' s' Hf) as [e ->]. destruct (d_later bsz cs s') as [t' l'] eqn:E.
    intros [= <- <-]. destruct (IH _ _ _ Hf E) as [H1 H2]. split; [done|]. constructor; [by exists e|done].
  - destruct (d_close_refused bsz sh' s' Hf) as [e ->]. destruct (d_later bsz cs s') as [t' l'] eqn:E.
    intros [= <- <-]. destruct (IH _ _ _ Hf E) as [H1 H2]. split; [done|]. constructor; [by exists e|done].
Qed.
Print Assumptions C92_delta_closed.

(** The index releases its file even if Close fails (C60), so here Close may have
    returned anything.  [is_closer]: the index was opened by its path, as namespaces
    do, and not on a file of the caller. *)
Theorem C92_index_closed :
  forall bsz sh s s' o cs t l, is_closer s = true ->
  i_close bsz sh s = (s', o) -> i_later bsz cs s' = (t, l) ->
  is_file t = is_file s' /\ Forall reports_error l.
Proof.
  intros bsz sh s s' o cs t l Hk Hc.
  assert (Hf : f_closed (is_file s') = true).
  { pose proof (i_close_closes bsz sh s Hk) as [H _]. by rewrite Hc in H. }
  assert (Hk' : is_closer s' = true).
  { unfold i_close in Hc. destruct ((iobind _ _) (is_file s)) as [f1 o1]. by injection Hc as <- _. }
  clear Hk Hc s o sh. revert s' t l Hf Hk'.
  induction cs as [|c cs IH]; intros s' t l Hf Hk; cbn [i_later]; [by intros [= <- <-]|].
  destruct c as [id ix|id|sh'].
  - intros H. by apply IH in H.
  - intros H. assert (E : is_file (i_remove id s') = is_file s' /\ is_closer (i_remove id s') = is_closer s').
    { unfold i_remove. by destruct (is_map s' !! id). }
    destruct E as [E1 E2]. apply IH in H; rewrite ?E1, ?E2 in *; done.
  - destruct (i_close_refused bsz sh' s' Hk Hf) as [e ->]. destruct (i_later bsz cs s') as [t' l'] eqn:E.
    intros [= <- <-]. destruct (IH _ _ _ Hf Hk E) as [H1 H2]. split; [done|]. constructor; [by exists e|done].
Qed.
Print Assumptions C92_index_closed.

Definition same_order A : shuffle A := Shuffle _ (fun l => l) (fun l => reflexivity l).

(** A new delta file is closed with one operation; two more are handed to the closed
    storage, Flush and Close fail, and the file still announces and holds one. *)
Example C92_delta_case :
  match d_open (open_file KOs []) with
  | (_, Ret s) =>
    match d_close 4096 (same_order _) (d_add 43 1 2 s) with
    | (s', Ret _) =>
      match d_later 4096 [DLAdd 43 3 4; DLFlush (same_order _); DLAdd 45 1 2; DLClose (same_order _)] s' with
      | (t, [Err _; Err _]) => d_total_count t = 3 /\ length (f_data (ds_file t)) = 32%nat
      | _ => False
      end
    | _ => False
    end
  | _ => False
  end.
Proof. vm_compute. done. Qed.

Example C92_index_case :
  match i_open 4096 4096 true (open_file KBuf []) with
  | (_, Ret s) =>
    match i_close 4096 (same_order _) (i_put 7 8 s) with
    | (s', Ret _) =>
      match i_later 4096 [ILPut 9 10; ILClose (same_order _); ILRemove 7; ILClose (same_order _)] s' with
      | (t, [Err _; Err _]) => i_get t 9 = Some 10 /\ length (f_data (is_file t)) = 28%nat
      | _ => False
      end
    | _ => False
    end
  | _ => False
  end.
Proof. vm_compute. done. Qed.
