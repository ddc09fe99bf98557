(** Property C114: a recovery of a delta file that reports an error
    (internal/infra/delta/storagefactory.go, protocol.go). *)
From Verif Require Import Base GoIO Lock Delta SpecLock SpecDelta SpecCrash GoIOFacts DeltaFacts DeltaRecoverFacts
  DeltaStoreFacts DeltaCrashFacts DeltaRecCrashFacts RecoverFaultFacts RecoverRetryFacts.

(** Opening [g] gives what opening [f] gives: the same file, the same number of
    entries, the same answers. *)
Definition opens_alike (csz : nat) (f g : file) : Prop :=
  exists f1 t1 f2 t2,
    d_open_maybe_recover csz f = (f1, Ret t1) /\ d_open_maybe_recover csz g = (f2, Ret t2) /\
    f_data f2 = f_data f1 /\ d_total_count t2 = d_total_count t1 /\
    forall user item, d_get t2 user item = d_get t1 user item.

(** * C114
    Full claim: a recovery that failed can be repeated.  False: the lock byte is
    rewritten with the first bytes that are copied back, so after an error behind it the
    next OpenMaybeRecover takes the half-written file for a clean one. *)

(** A record that recovery would have dropped, and one that it would have kept. *)
Definition half_bad : list byte :=
  delta_magic ++ [1; 1; 0; 0; 0; 2] ++ <[0%nat := 99]> (op_record 43 3 4) ++ op_record 45 5 6.

(** (1) A write that fails after 10 bytes: the invalid record is loaded. *)
Theorem C114_retry_after_write_error_refuted :
  ~ (forall csz f f' e, f_closed f = false -> f_pos f = 0%nat -> (0 < csz)%nat -> take 8 (f_data f) = delta_magic ->
     Forall is_byte (f_data f) -> Z.of_nat (length (f_data f)) < 2 ^ 32 * 18 ->
     d_recover csz f = (f', Err e) ->
     opens_alike csz (open_file KOs (f_data f)) (open_file KOs (f_data f'))).
Proof.
  intros H.
  set (f := File KOs half_bad 0 false (repeat FOk 11 ++ [FErr 10]) []).
  destruct (H 512%nat f (fst (d_recover 512 f)) EInjected) as (f1 & t1 & f2 & t2 & E1 & E2 & _ & Hn & Hg).
  - reflexivity.
  - reflexivity.
  - lia.
  - reflexivity.
  - refine (bool_decide_unpack (Forall (fun z => 0 <= z < 256) half_bad) _). vm_compute. exact I.
  - vm_compute. reflexivity.
  - vm_compute. reflexivity.
  - assert (A1 : match snd (d_open_maybe_recover 512 (open_file KOs (f_data f))) with Ret t => d_total_count t | _ => 0 end = 1)
      by (vm_compute; reflexivity).
    assert (A2 : match snd (d_open_maybe_recover 512 (open_file KOs (f_data (fst (d_recover 512 f))))) with
                 | Ret t => d_total_count t | _ => 0 end = 2) by (vm_compute; reflexivity).
    rewrite E1 in A1. rewrite E2 in A2. cbn [snd] in A1, A2. rewrite A1, A2 in Hn. discriminate Hn.
Qed.
Print Assumptions C114_retry_after_write_error_refuted.

(** (2) A Truncate that fails: the torn rest stays in the unlocked file. *)
Definition half_torn : list byte :=
  delta_magic ++ [1; 1; 0; 0; 0; 2] ++ op_record 43 1 10 ++ take 5 (op_record 45 2 20).

Theorem C114_retry_after_truncate_error_refuted :
  exists (csz : nat) (f f' : file) (e : err),
    f_data f = half_torn /\ f_closed f = false /\ f_pos f = 0%nat /\ (0 < csz)%nat /\
    d_recover csz f = (f', Err e) /\
    f_data f' = delta_image 0 [op_record 43 1 10] ++ take 5 (op_record 45 2 20) /\
    ~ opens_alike csz (open_file KOs (f_data f)) (open_file KOs (f_data f')).
Proof.
  set (f := File KOs half_torn 0 false (repeat FOk 10 ++ [FErr 0]) []).
  exists 512%nat, f, (fst (d_recover 512 f)), EInjected.
  split; [reflexivity|]. split; [reflexivity|]. split; [reflexivity|]. split; [lia|].
  split; [vm_compute; reflexivity|]. split; [vm_compute; reflexivity|].
  intros (f1 & t1 & f2 & t2 & E1 & E2 & Hd & _).
  assert (A1 : length (f_data (fst (d_open_maybe_recover 512 (open_file KOs (f_data f))))) = 32%nat)
    by (vm_compute; reflexivity).
  assert (A2 : length (f_data (fst (d_open_maybe_recover 512 (open_file KOs (f_data (fst (d_recover 512 f))))))) = 37%nat)
    by (vm_compute; reflexivity).
  rewrite E1 in A1. rewrite E2 in A2. cbn [fst] in A1, A2. rewrite Hd, A1 in A2. discriminate A2.
Qed.
Print Assumptions C114_retry_after_truncate_error_refuted.

(** What is always true, whichever reads, writes and truncations fail.  The file is left
    with the beginning of a recovery of some beginning of the content written over it,
    as if the process had died there (C29). *)
Theorem C114_failed_recovery_partial :
  forall csz f f' e, f_closed f = false -> f_pos f = 0%nat -> (0 < csz)%nat ->
  Forall is_byte (f_data f) -> Z.of_nat (length (f_data f)) < 2 ^ 32 * 18 ->
  d_recover csz f = (f', Err e) ->
  exists k out j, recovers_to (take k (f_data f)) out /\ (j <= length out)%nat /\
    f_data f' = take j out ++ drop j (f_data f).
Proof.
  intros csz f f' e Hcl Hp Hc Hb Hl E.
  assert (Hrem : frem f = f_data f) by (unfold frem; by rewrite Hp, drop_0).
  pose proof (d_recover_fails csz f f' e Hc Hcl) as H. rewrite Hrem in H.
  destruct (H Hb Hl E) as (k & out & j & _ & H1 & H2 & H3). by exists k, out, j.
Qed.
Print Assumptions C114_failed_recovery_partial.

(** And a file that is still locked can be recovered again, with nothing lost. *)
Theorem C114_retry_partial :
  forall csz f f' e y, f_closed f = false -> f_pos f = 0%nat -> (0 < csz)%nat -> take 8 (f_data f) = delta_magic ->
  Forall is_byte (f_data f) -> Z.of_nat (length (f_data f)) < 2 ^ 32 * 18 ->
  d_recover csz f = (f', Err e) -> f_data f' !! 9%nat = Some y -> y <> 0 ->
  forall g g', usable g -> f_pos g = 0%nat -> f_data g = f_data f ->
    usable g' -> f_pos g' = 0%nat -> f_data g' = f_data f' -> opens_alike csz g g'.
Proof.
  intros csz f f' e y Hcl Hp Hc Hm Hb Hl E Hy Hne g g' Hg Hgp Hgd Hg' Hgp' Hgd'.
  destruct (C114_failed_recovery_partial csz f f' e) as (k & out0 & j & H1 & H2 & H3); try done.
  rewrite H3 in Hy. destruct (retry_same (f_data f) _ out0 j y Hm H1 H2 Hy Hne) as [Hd9 Hc']. rewrite <- H3 in Hc', Hy.
  destruct (recovers_exists (f_data f)) as [out Hout].
  assert (R : recovers_to (f_data f') out /\ length (f_data f') = length (f_data f) /\ Forall is_byte (f_data f')).
  { destruct Hc' as [-> | ->]; [done|]. split; [by apply recovers_insert_8|].
    split; [apply insert_length|]. by apply Forall_insert. }
  destruct R as (R1 & R2 & R3).
  destruct (recover_opens csz g out y) as (E1 & f0 & f1 & t1 & HE & HEl & Eout & Hu0 & Hd0 & Ho1 & Hr1); rewrite ?Hgd; try done.
  destruct (recover_opens csz g' out y) as (E2 & g0 & f2 & t2 & _ & _ & _ & Hu0' & Hd0' & Ho2 & Hr2); rewrite ?Hgd', ?R2; try done.
  destruct (opened_view f0 f1 t1 E1) as (V1 & _ & V2 & V3); try done; [by rewrite Hd0|].
  destruct (opened_view g0 f2 t2 E1) as (W1 & _ & W2 & W3); try done; [by rewrite Hd0'|].
  exists f1, t1, f2, t2. split; [done|]. split; [done|]. split; [by rewrite V1, W1|].
  split; [unfold d_total_count; by rewrite V2|]. intros u i. by rewrite V3, W3.
Qed.
Print Assumptions C114_retry_partial.

(** A disk that is full after 9 bytes: the file is still locked. *)
Example C114_case :
  let f := File KOs half_bad 0 false (repeat FOk 11 ++ [FErr 9]) [] in
  exists f', d_recover 512 f = (f', Err EInjected) /\ f_data f' !! 9%nat = Some 1 /\
    take 8 half_bad = delta_magic /\ usable (open_file KOs (f_data f')).
Proof.
  eexists. split; [vm_compute; reflexivity|]. split; [reflexivity|]. split; [reflexivity|].
  split; [done|]. split; [done|]. by left.
Qed.
