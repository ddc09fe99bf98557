(** Property C130: the memory that opening a delta file asks for. *)
From Verif Require Import Base GoIO Lock Delta SpecFile SpecLock SpecDelta GoIOFacts RecdbMem RecdbMemFacts DeltaMem DeltaMemFacts.

(** * C130
    Whatever the file contains and whatever its header announces, whichever reads fail
    and whether Open succeeds or not: for the operations it asks for at most 1840 bytes
    of memory for each 18 bytes behind the header, about 102 times the length of the
    file.  [grow] is the capacity that append gives to a slice that is full; what is
    assumed of it is what Go does ([go_growth], DeltaMemFacts.v). *)
Theorem C130_open_memory :
  forall (grow : nat -> nat) (f f' : file) (z : Z) (o : outcome dstore),
  (forall cap, (100 <= cap)%nat -> (5 * cap <= 4 * grow cap /\ grow cap <= 3 * cap)%nat) ->
  d_open_mem grow (f, 0) = ((f', z), o) ->
  18 * z <= 1840 * Z.max 0 (Z.of_nat (length (f_data f)) - 14).
Proof.
  intros grow f f' z o Hg H. pose proof (d_open_bound grow f Hg) as Hb. rewrite H in Hb. cbn [fst snd] in Hb. lia.
Qed.
Print Assumptions C130_open_memory.

(** And it asks for enough: 16 bytes for every operation.  Most of the bound is needed
    already for users with few operations: each user takes 1600 bytes, even one with a
    single operation, which takes 18 bytes of the file. *)
Theorem C130_every_user_takes_1600 :
  forall (grow : nat -> nat) (f f' : file) (z : Z) (s : dstore),
  (forall cap, (100 <= cap)%nat -> (5 * cap <= 4 * grow cap /\ grow cap <= 3 * cap)%nat) ->
  d_open_mem grow (f, 0) = ((f', z), Ret s) -> 16 * d_total_count s <= z /\ 1600 * d_user_count s <= z.
Proof.
  intros grow f f' z s Hg H. destruct (d_open_low grow f f' z s Hg H) as (Ht & Hz & Hn).
  split; [exact Ht|]. unfold d_user_count. rewrite Hn, map_to_list_empty. cbn. lia.
Qed.
Print Assumptions C130_every_user_takes_1600.

(** The capacities and the counter change nothing else: without them this is Open of
    Delta.v. *)
Theorem C130_counter_is_ghost :
  forall (grow : nat -> nat) (f : file) (z : Z),
  (fst (fst (d_open_mem grow (f, z))), snd (d_open_mem grow (f, z))) = d_open f.
Proof. intros grow f z. apply (d_open_erases grow f z). Qed.
Print Assumptions C130_counter_is_ghost.

(** A header that announces a million records before one: Open fails, having asked for
    1600 bytes.  Three records of two users: 3200 bytes.  101 records of one user: 1600
    bytes and another 3200 when the slice is full. *)
Example C130_case :
  let grow cap := (2 * cap)%nat in
  (forall cap, (100 <= cap)%nat -> (5 * cap <= 4 * grow cap /\ grow cap <= 3 * cap)%nat) /\
  (exists f' e, d_open_mem grow (open_file KOs (delta_magic ++ [1; 0] ++ be32 1000000 ++ op_record 43 1 2), 0)
     = ((f', 1600), Err e)) /\
  (exists f' s, d_open_mem grow (open_file KOs (delta_image 0 [op_record 43 1 2; op_record 43 3 4; op_record 45 1 2]), 0)
     = ((f', 3200), Ret s) /\ d_user_count s = 2) /\
  (let r := d_open_mem grow (open_file KOs (delta_image 0 (repeat (op_record 43 1 2) 101)), 0) in
   snd (fst r) = 4800 /\ match snd r with Ret s => d_user_count s = 1 | _ => False end).
Proof.
  cbv zeta. split; [lia|]. split; [|split].
  - eexists _, _. vm_compute. reflexivity.
  - eexists _, _. split; [vm_compute; reflexivity|vm_compute; reflexivity].
  - split; vm_compute; reflexivity.
Qed.
