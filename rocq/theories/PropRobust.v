(** Property C88: whatever a file contains, wherever its pointer stands, whether it
    is closed and whichever reads and writes fail ([f_env] is arbitrary), every call
    on it returns a result or an error: it neither panics nor loops for ever. *)
From Verif Require Import Base GoIO Lock Profile Delta Index Recdb RobustFacts.

(** [returned o]: [o] is a result or an error. *)

(** [csz] and [bsz] are the buffer sizes of io.Copy and of the bufio.Writers, [s] an
    arbitrary storage with an arbitrary file. *)
Theorem C88_delta_calls_return :
  forall csz bsz sh (f : file) (s : dstore), (0 < csz)%nat ->
  returned (snd (d_open f)) /\
  returned (snd (d_recover csz f)) /\
  returned (snd (d_open_maybe_recover csz f)) /\
  returned (snd (d_flush bsz sh s)) /\
  returned (snd (d_close bsz sh s)).
Proof.
  intros csz bsz sh f s Hc. split; [apply d_open_safe|]. split; [by apply d_recover_safe|].
  split; [by apply d_open_maybe_recover_safe|]. split; [apply d_flush_safe|apply d_close_safe].
Qed.
Print Assumptions C88_delta_calls_return.

Theorem C88_index_calls_return :
  forall bsz rsz c sh (f : file) (s : istore), (0 < rsz)%nat ->
  returned (snd (i_open bsz rsz c f)) /\ returned (snd (i_close bsz sh s)).
Proof. intros bsz rsz c sh f s Hr. split; [by apply i_open_safe|apply i_close_safe]. Qed.
Print Assumptions C88_index_calls_return.

(** SetPrevious is handed a value, which must not be nil. *)
Theorem C88_recdb_calls_return :
  forall rsz (f : file) (it : iter) e, (0 < rsz)%nat -> re_data e <> DNil -> re_data e <> DNilProfile ->
  returned (snd (r_new_iterator f)) /\ returned (snd (r_rewind it)) /\
  returned (snd (r_next rsz it)) /\ returned (snd (r_set_previous e it)).
Proof.
  intros rsz f it e Hr N1 N2. split; [apply r_new_iterator_safe|]. split; [apply r_rewind_safe|].
  split; [by eapply steady_safe, r_next_steady|by apply r_set_previous_safe].
Qed.
Print Assumptions C88_recdb_calls_return.

(** Loops of the helpers and of bufio.Writer, where the model marks a loop that never
    ends by the error value [EDiverge]. *)
Theorem C88_helper_loops_end :
  forall size p n (f : file) (b : bwriter file), bw_err b <> Some EDiverge ->
  snd (snd (bw_write fwrite size p b)) <> Some EDiverge /\
  snd (snd (write_zeros fwrite n f)) <> Some EDiverge /\
  snd (snd (skip_reading fread n f)) <> Some EDiverge.
Proof.
  intros size p n f b Hb. split; [by apply bw_write_no_diverge|].
  split; [apply write_zeros_no_diverge|apply skip_reading_no_diverge].
Qed.
Print Assumptions C88_helper_loops_end.

(** ** Iterating ends *)

(** [k] calls of Next, all of which succeed. *)
Inductive nexts (rsz : nat) : nat -> iter -> iter -> Prop :=
| nexts_O it : nexts rsz O it it
| nexts_S k it e it1 it2 : r_next rsz it = (it1, Ret e) -> nexts rsz k it1 it2 ->
    nexts rsz (S k) it it2.

(** However many entries the header announces (up to 2^32 - 1), a file of [n] bytes
    yields at most (n - 19) / 21 of them. *)
Theorem C88_iteration_ends :
  forall rsz (f f' : file) it it' k, (0 < rsz)%nat ->
  r_new_iterator f = (f', Ret it) -> nexts rsz k it it' ->
  (19 + 21 * k <= length (f_data f))%nat.
Proof.
  intros rsz f f' it it' k Hr Hn Hk.
  assert (Hk' : (it_unread it' + 21 * k <= it_unread it)%nat).
  { clear Hn. induction Hk as [it|k it e it1 it2 E _ IH]; [lia|].
    pose proof (r_next_steady rsz Hr it) as H. rewrite E in H. cbn in H. lia. }
  assert (Hf : (it_unread it + 19 <= length (f_data f))%nat).
  { clear Hk Hk'. unfold r_new_iterator in Hn. cbv zeta in Hn. revert Hn. unfold iobind at 1, iomaperr at 1.
    destruct (fseek 0 SeekStart f) as [f1 [z|e| |]] eqn:Es; try done.
    assert (E1 : unread f1 = length (f_data f)).
    { revert Es. unfold fseek. destruct (f_closed f); [done|]. cbn zeta.
      destruct (match f_kind f with KBuf => _ | KOs => _ end); [done|]. intros [= <- <-].
      unfold unread, fset_pos. cbn. lia. }
    unfold iobind at 1.
    assert (P : steady unread 5 (iomaperr (fun _ => EMsg "failed to read DB prefix") (r_read_prefix fread))).
    { apply steady_maperr. unfold r_read_prefix.
      apply (steady_bind unread 5 0); [apply (read_full_steady fread unread 5), fread_progress|]. intros a.
      destruct (bool_decide _); [apply steady_ret|apply steady_fail]. }
    specialize (P f1).
    destruct (iomaperr _ (r_read_prefix fread) f1) as [f2 [[]|e| |]]; try done. cbn in P.
    assert (Q : steady unread 14 (iomaperr (fun _ => EMsg "failed to read DB header") (r_read_header fread))).
    { apply steady_maperr. unfold r_read_header.
      apply (steady_bind unread 14 0); [apply steady_maperr, (read_full_steady fread unread 14), fread_progress|].
      intros a. apply steady_ret. }
    specialize (Q f2).
    destruct (iomaperr _ (r_read_header fread) f2) as [f3 [h|e| |]]; try done. cbn in Q.
    destruct (negb _); [done|]. intros [= <- <-]. unfold it_unread. cbn. lia. }
  lia.
Qed.
Print Assumptions C88_iteration_ends.

(** A database whose header announces 4294967295 entries and which holds one profile
    without likes and dislikes: one Next succeeds, the second fails. *)
Definition lying_db : list byte :=
  recdb_prefix ++ [1] ++ like_entry_type ++ [0; 255; 255; 255; 255] ++
  be_enc 4 21 ++ [0] ++ be_enc 8 7 ++ be_enc 4 0 ++ be_enc 4 0.

Example C88_case : exists f' it it1 e,
  r_new_iterator (open_file KOs lying_db) = (f', Ret it) /\ rh_count (it_header it) = 4294967295 /\
  nexts 16 1 it it1 /\ re_data (it_entry it1) = DProfile (Profile 7 [] []) /\
  snd (r_next 16 it1) = Err e /\ length lying_db = 40%nat.
Proof.
  eexists _, _, _, _. split; [reflexivity|]. split; [reflexivity|].
  split; [eapply nexts_S; [vm_compute; reflexivity|apply nexts_O]|]. split; [reflexivity|].
  split; [vm_compute; reflexivity|reflexivity].
Qed.

(** A delta file that announces more records than it has, read with a failing disk. *)
Example C88_delta_case :
  snd (d_open (File KOs (delta_prefix ++ [1; 0; 0; 0; 3; 232]) 0 false [] [])) =
    Err (EMsg "cannot read entry") /\
  snd (d_recover 8 (File KOs (delta_prefix ++ [1; 1; 0; 0; 0; 9]) 0 false [FOk; FErr 2] [])) = Ret tt.
Proof. split; vm_compute; reflexivity. Qed.
