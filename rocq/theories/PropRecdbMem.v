(** Property C90: the memory that reading an entry asks for. *)
From Verif Require Import Base GoIO GoIOFacts CodecFacts Profile Recdb RecdbMem RobustFacts RecdbMemFacts.

(** * C90
    Full claim: ReadEntry asks for no more memory than the entry occupies in the file
    (twice: once for the slices, once for the buffers of encoding/binary).
    False: both slices are made with a length taken from the file before anything
    checks it (likeprotocol.go:39, 50); the comparison with the capacity comes at the
    end (likeprotocol.go:66).  An entry cut off after 17 bytes makes it ask for 16 n
    bytes, for any n below 2^32. *)
Theorem C90_memory_refuted :
  forall (f : file) (e : rentry) (c d u n : Z),
  healthy f -> 0 < n < 2 ^ 32 ->
  frem f = be_enc 4 c ++ be_enc 1 d ++ be_enc 8 u ++ be_enc 4 n ->
  exists f' e' x, r_read_entry_mem fread ((f, e), 0) = (((f', e'), 16 * n), Err x).
Proof. intros f e c d u n Hf Hn Hrem. by apply (r_read_entry_greedy fread _ _ _ f e 0 c d u n fread_lawful). Qed.
Print Assumptions C90_memory_refuted.

(** What is true, with any faults: a call that succeeds has asked for no more than
    twice the bytes it has read, nor twice the capacity of the entry. *)
Theorem C90_memory_partial :
  forall (f f' : file) (e e' : rentry) (z c : Z),
  r_read_entry_mem fread ((f, e), 0) = (((f', e'), z), Ret c) ->
  z <= 2 * (Z.of_nat (unread f) - Z.of_nat (unread f')) /\
  (entry_header_size <= c < 2 ^ 32 -> z <= 2 * c).
Proof.
  intros f f' e e' z c H. split.
  - pose proof (r_read_entry_frugal fread unread fread_progress f e 0) as Hf. rewrite H in Hf. lia.
  - intros Hc. apply r_read_entry_fits in H. unfold u32, entry_header_size in *.
    rewrite Z.mod_small in H by lia. lia.
Qed.
Print Assumptions C90_memory_partial.

(** The counter changes nothing else: without it, this is ReadEntry of Recdb.v. *)
Theorem C90_counter_is_ghost :
  forall (R : Type) (rd : reader R) (s : R * rentry) (z : Z),
  (fst (fst (r_read_entry_mem rd (s, z))), snd (r_read_entry_mem rd (s, z))) = r_read_entry rd s.
Proof. intros. apply erases_read_entry. Qed.
Print Assumptions C90_counter_is_ghost.

(** 17 bytes that ask for 64 GiB less 16 bytes, and an entry of 40 bytes with one like
    and one dislike that asks for 32. *)
Definition greedy_entry : list byte := be_enc 4 100 ++ be_enc 1 0 ++ be_enc 8 7 ++ be_enc 4 (2 ^ 32 - 1).
Definition small_entry : list byte :=
  be_enc 4 40 ++ be_enc 1 0 ++ be_enc 8 7 ++ be_enc 4 1 ++ be_enc 8 11 ++ be_enc 4 1 ++ be_enc 8 12 ++ repeat 0 3.

Example C90_case :
  (exists f' e' x, r_read_entry_mem fread ((open_file KOs greedy_entry, REntry 0 0 DNil), 0)
    = (((f', e'), 2 ^ 36 - 16), Err x)) /\
  (let '(((f', e'), z), o) := r_read_entry_mem fread ((open_file KOs small_entry, REntry 0 0 DNil), 0) in
   o = Ret 40 /\ z = 32 /\ re_data e' = DProfile (Profile 7 [11] [12])).
Proof.
  split.
  - apply (C90_memory_refuted (open_file KOs greedy_entry) (REntry 0 0 DNil) 100 0 7 (2 ^ 32 - 1)); done.
  - vm_compute. done.
Qed.
