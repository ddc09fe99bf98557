(** Property C89: recovery of a delta file when a read fails. *)
From Verif Require Import Base GoIO GoIOFacts Lock Delta SpecDelta RecoverFaultFacts.

(** * C89
    Full claim: if a read fails while a delta file is recovered, Recover reports an
    error and the records stay in the file.  False: RecoverTo takes any read error for
    the end of the file (protocol.go:266, 272, 288), and Recover then truncates the
    file.  Whatever the file held, one failing read empties it, with success reported. *)
Theorem C89_read_error_refuted :
  forall (csz n : nat) (f : file), (0 < csz)%nat -> (n < 8)%nat ->
  f_closed f = false -> f_env f = [FErr n] ->
  exists f', d_recover csz f = (f', Ret tt) /\ f_data f' = delta_image 0 [].
Proof.
  intros csz n f Hc Hn Hcl He.
  destruct (d_recover_first_read_fails csz f n Hc Hn Hcl He) as (f' & E & Hd & _). by exists f'.
Qed.
Print Assumptions C89_read_error_refuted.

(** What is always true: with any reads and writes failing, a recovery that reports
    success leaves what a recovery of some beginning of the content would leave: it
    drops records behind the failure, but invents and damages none. *)
Theorem C89_read_error_partial :
  forall (csz : nat) (f f' : file), (0 < csz)%nat -> f_closed f = false -> f_pos f = 0%nat ->
  Forall is_byte (f_data f) -> Z.of_nat (length (f_data f)) < 2 ^ 32 * 18 ->
  d_recover csz f = (f', Ret tt) ->
  exists k, (k <= length (f_data f))%nat /\ recovers_to (take k (f_data f)) (f_data f').
Proof.
  intros csz f f' Hc Hcl Hp Hb Hl E.
  assert (Hrem : frem f = f_data f) by (unfold frem; by rewrite Hp, drop_0).
  pose proof (d_recover_faulty csz f f' Hc Hcl) as H. rewrite Hrem in H. by apply H.
Qed.
Print Assumptions C89_read_error_partial.

(** A locked file with two good records and a disk that fails once while the second
    record is read: OpenMaybeRecover succeeds and only the first is left. *)
Definition two_records : list byte := delta_image 1 [op_record 43 1 2; op_record 45 5 6].

Example C89_case :
  (let '(f', o) := d_recover 512 (File KOs two_records 0 false [FOk; FOk; FOk; FOk; FOk; FOk; FErr 0] []) in
   o = Ret tt /\ f_data f' = delta_image 0 [op_record 43 1 2]) /\
  (let '(_, o) := d_open_maybe_recover 512
     (File KOs two_records 0 false [FOk; FOk; FOk; FOk; FOk; FOk; FOk; FErr 0] []) in
   match o with Ret s => ds_total s = 1 | _ => False end) /\
  (let '(_, o) := d_open_maybe_recover 512 (open_file KOs two_records) in
   match o with Ret s => ds_total s = 2 | _ => False end).
Proof. vm_compute. done. Qed.
