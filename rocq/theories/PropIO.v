(** Properties C13-C14: internal/helpers/file_buffer.go and io.go. *)
From Verif Require Import Base GoIO FileBuffer SpecFile GoIOFacts FileBufferFacts.

(** * C13 *)

(** The ideal file holding [d] (see SpecFile.v for what it does). *)
Definition ideal_file (d : list byte) : ideal :=
  Ideal (fun p => default 0 (d !! Z.to_nat p)) (Z.of_nat (length d)) 0 false.

Lemma new_filebuffer_matches d : fb_matches (new_filebuffer d) (ideal_file d).
Proof.
  constructor; cbn; try done. intros i b Hb. by rewrite Nat2Z.id, Hb.
Qed.

(** No session panics; the offset stays inside; the results are those of an ideal
    session, and of every ideal session. [2 ^ 63]: the buffer fits Go's memory. *)
Theorem C13_filebuffer_is_ideal_file :
  forall (d : list byte) (calls : list fbcall), Forall call_ok calls ->
  Z.of_nat (length d) + total_growth calls < 2 ^ 63 ->
  exists fb results, fb_run calls (new_filebuffer d) = Ret (fb, results) /\
    0 <= fb_offset fb <= Z.of_nat (length (fb_buffer fb)) /\
    (exists s, iruns (map icall_of calls) (ideal_file d) s (map ires_of results) /\
       fb_matches fb s) /\
    (forall s results', iruns (map icall_of calls) (ideal_file d) s results' ->
       results' = map ires_of results).
Proof.
  intros d calls Hok Hlen.
  destruct (fb_run_refines calls (new_filebuffer d) (ideal_file d)) as (fb & rs & s & Hr & Hi & Hrs & Hm).
  - unfold fb_inv. cbn. lia.
  - apply new_filebuffer_matches.
  - done.
  - done.
  - exists fb, rs. split; [done|]. split; [done|]. split; [by exists s|].
    intros s' rs' H'. symmetry.
    apply (iruns_det _ _ _ _ _ _ _) with (3 := Hrs) (4 := H'); [by repeat split|cbn; lia].
Qed.
Print Assumptions C13_filebuffer_is_ideal_file.

Example C13_case :
  Forall call_ok [CWrite [1;2;3]; CSeek (-2) 2; CRead 5; CSeek 9 0; CTruncate 5; CRead 1; CClose; CRead 1] /\
  fb_run [CWrite [1;2;3]; CSeek (-2) 2; CRead 5; CSeek 9 0; CTruncate 5; CRead 1; CClose; CRead 1]
    (new_filebuffer []) =
  Ret (FB [1;2;3;0;0] 4 true,
       [FBRes [] 3 None; FBRes [] 1 None; FBRes [2;3] 2 None; FBRes [] 0 (Some EInvalid);
        FBRes [] 0 None; FBRes [0] 1 None; FBRes [] 0 None; FBRes [] 0 (Some EClosed)]).
Proof. split; [repeat constructor; done|by vm_compute]. Qed.

(** The [KBuf] files used by the storage models are FileBuffers. *)
Theorem C13_kbuf_is_filebuffer :
  forall (fb : filebuffer) (log : list wop), fb_inv fb ->
  Z.of_nat (length (fb_buffer fb)) < 2 ^ 63 ->
  (forall n, exists fb' r, fb_read (Z.of_nat n) fb = Ret (fb', r) /\
     fread n (as_file fb log) = (as_file fb' log, (res_bytes r, res_err r)) /\
     res_n r = Z.of_nat (length (res_bytes r))) /\
  (forall bs, exists fb' r log', fb_write bs fb = Ret (fb', r) /\
     fwrite bs (as_file fb log) = (as_file fb' log', (Z.to_nat (res_n r), res_err r))) /\
  (forall o w, in_type I64 o -> exists fb' r, fb_seek o (whence_code w) fb = Ret (fb', r) /\
     fseek o w (as_file fb log) =
       (as_file fb' log, match res_err r with None => Ret (res_n r) | Some e => Err e end)) /\
  (forall sz, exists fb' r log', fb_truncate sz fb = Ret (fb', r) /\
     ftruncate sz (as_file fb log) =
       (as_file fb' log', match res_err r with None => Ret tt | Some e => Err e end)) /\
  (exists fb' r, fb_close fb = Ret (fb', r) /\
     fclose (as_file fb log) = (as_file fb' log, Ret tt) /\ res_err r = None).
Proof.
  intros fb log Hi Hl.
  split; [intros; by apply fread_is_fb_read|].
  split; [intros; by apply fwrite_is_fb_write|].
  split; [intros; by apply fseek_is_fb_seek|].
  split; [intros; by apply ftruncate_is_fb_truncate|].
  apply fclose_is_fb_close.
Qed.
Print Assumptions C13_kbuf_is_filebuffer.

(** * C14 *)
Theorem C14_write_zeros_exact :
  forall (W : Type) (wr : writer W) (out : W -> list byte), working_writer wr out ->
  forall (size : Z) (w : W), exists w',
    write_zeros wr size w = (w', (Z.max 0 size, None)) /\
    out w' = out w ++ replicate (Z.to_nat size) 0.
Proof. exact @write_zeros_working. Qed.
Print Assumptions C14_write_zeros_exact.

Theorem C14_skip_reading_exact :
  forall (R : Type) (rd : reader R) (rest : R -> list byte), stream_reader rd rest ->
  forall (n : nat) (r : R), exists r', rest r' = drop n (rest r) /\
    skip_reading rd (Z.of_nat n) r =
      (r', if decide (n <= length (rest r))%nat then (Z.of_nat n, None)
           else (Z.of_nat (length (rest r)), Some EEOF)).
Proof. exact @skip_reading_stream. Qed.
Print Assumptions C14_skip_reading_exact.

(** A reader giving one byte at a time, and a writer into a list. *)
Definition one_by_one : reader (list byte) := fun n l =>
  match l, n with
  | [], _ => ([], ([], Some EEOF)) | _, O => (l, ([], None)) | b :: l, _ => (l, ([b], None))
  end.
Definition into_list : writer (list byte) := fun bs l => (l ++ bs, (length bs, None)).

Example C14_case :
  stream_reader one_by_one (fun l => l) /\ working_writer into_list (fun l => l) /\
  skip_reading one_by_one 3 [7;8;9;10] = ([10], (3, None)) /\
  skip_reading one_by_one 3 [7;8] = ([], (2, Some EEOF)) /\
  write_zeros into_list 3 [7] = ([7;0;0;0], (3, None)) /\
  snd (write_zeros into_list 250 [7]) = (250, None).
Proof.
  split; [|split; [|by vm_compute]].
  - intros n l Hn. destruct n as [|n]; [lia|]. destruct l as [|b l].
    + left. split; [done|]. by exists [].
    + right. exists l, [b]. cbn. repeat split; lia.
  - intros bs w. by exists (w ++ bs).
Qed.
