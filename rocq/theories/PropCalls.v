(** Property C135: how often the storages go to the operating system. *)
From Verif Require Import Base GoIO Delta Index SpecFile SpecDelta SpecIndex CallsFacts.

(** The script [f_env] of a file says what the next reads, writes, truncations and closes
    come to; each of them uses up one entry.  So a call that succeeds on a script
    [repeat FOk c ++ rest] and leaves [rest] has made exactly [c] of them. *)

(** * C135
    Flush writes the header once and the [n] operations added since the last Flush in
    blocks of the size of the buffer: 4096 bytes, 227 operations. *)
Theorem C135_flush :
  forall (bsz n c : nat) (sh : new_order) (s : dstore) (rest : list fault),
  (8 <= bsz)%nat -> length (concat (map snd (map_to_list (ds_new s)))) = n ->
  (18 * n <= c * bsz < 18 * n + bsz)%nat ->
  f_closed (ds_file s) = false -> f_env (ds_file s) = repeat FOk (1 + c) ++ rest ->
  exists s', d_flush bsz sh s = (s', Ret tt) /\ f_env (ds_file s') = rest.
Proof.
  intros bsz n c sh s rest Hb Hn Hc Hcl He.
  destruct (d_flush_scripted bsz 0 (f_kind (ds_file s), rest) sh s Hb) as (s' & E & _ & H & _).
  - split; [exact Hcl|]. split; [|done]. cbn [snd]. rewrite He. unfold pending_count. rewrite Hn, (blocks_spec bsz (18 * n) c) by lia.
    by rewrite Nat.add_0_r.
  - by exists s'.
Qed.
Print Assumptions C135_flush.

(** Close adds the write of the lock byte and the close. *)
Theorem C135_close :
  forall (bsz n c : nat) (sh : new_order) (s : dstore) (rest : list fault),
  (8 <= bsz)%nat -> length (concat (map snd (map_to_list (ds_new s)))) = n ->
  (18 * n <= c * bsz < 18 * n + bsz)%nat ->
  f_kind (ds_file s) = KOs -> f_closed (ds_file s) = false -> f_env (ds_file s) = repeat FOk (3 + c) ++ rest ->
  exists s', d_close bsz sh s = (s', Ret tt) /\ f_env (ds_file s') = rest /\ f_closed (ds_file s') = true.
Proof.
  intros bsz n c sh s rest Hb Hn Hc Hk Hcl He. apply d_close_scripted; [done..|].
  unfold pending_count. rewrite Hn, (blocks_spec bsz (18 * n) c) by lia. exact He.
Qed.
Print Assumptions C135_close.

(** Opening is not done in blocks: four reads for every operation, besides those of prefix
    and header and the write of the lock byte. *)
Theorem C135_open :
  forall (n : nat) (f f' : file) (s : dstore) (rest : list fault),
  f_closed f = false -> f_data f <> [] -> f_env f = repeat FOk (3 + 4 * n) ++ rest ->
  d_open f = (f', Ret s) -> d_total_count s = Z.of_nat n -> f_env (ds_file s) = rest.
Proof.
  intros n f f' s rest Hc Hd He E Hn. refine (proj2 (d_open_scripted (f_kind f, rest) f f' s Hd _ E)).
  rewrite Hn, Nat2Z.id. by split.
Qed.
Print Assumptions C135_open.

(** A new file takes five writes. *)
Theorem C135_open_new :
  forall (f f' : file) (s : dstore) (rest : list fault),
  f_closed f = false -> f_data f = [] -> f_env f = repeat FOk 5 ++ rest ->
  d_open f = (f', Ret s) -> f_env (ds_file s) = rest.
Proof.
  intros f f' s rest Hc Hd He E. refine (proj2 (d_open_new_scripted (f_kind f, rest) f f' s Hd _ E)). by split.
Qed.
Print Assumptions C135_open_new.

(** The index is read and written in blocks: 256 pairs at a time.  What follows the
    announced pairs in the file is not read, beyond the last block. *)
Theorem C135_index_open :
  forall (bsz rsz c : nat) (closer : bool) (l : list (Z * Z)) (tail : list byte) (f f' : file) (s : istore) (rest : list fault),
  (12 < rsz)%nat -> Z.of_nat (length l) < 2 ^ 32 -> f_data f = index_image 0 l ++ tail ->
  (12 + 16 * length l <= c * rsz < 12 + 16 * length l + rsz)%nat ->
  f_closed f = false -> f_env f = repeat FOk (1 + c) ++ rest ->
  i_open bsz rsz closer f = (f', Ret s) -> f_env (is_file s) = rest.
Proof.
  intros bsz rsz c closer l tail f f' s rest Hr Hl Hd Hc Hcl He E.
  refine (i_open_scripted bsz rsz closer (f_kind f, rest) 0 l tail f f' s Hr Hl Hd _ E).
  rewrite (blocks_spec rsz (12 + 16 * length l) c) by lia. by split.
Qed.
Print Assumptions C135_index_open.

Theorem C135_index_close :
  forall (bsz c : nat) (sh : index_order) (s : istore) (rest : list fault),
  (8 <= bsz)%nat -> (16 * size (is_map s) <= c * bsz < 16 * size (is_map s) + bsz)%nat ->
  is_closer s = true -> f_kind (is_file s) = KOs -> f_closed (is_file s) = false ->
  f_env (is_file s) = repeat FOk (2 + c) ++ rest ->
  exists s', i_close bsz sh s = (s', Ret tt) /\ f_env (is_file s') = rest /\ f_closed (is_file s') = true.
Proof.
  intros bsz c sh s rest Hb Hc Hcl Hk Hop He. apply i_close_scripted; [done..|].
  rewrite (blocks_spec bsz (16 * size (is_map s)) c) by lia. exact He.
Qed.
Print Assumptions C135_index_close.

(** Two operations: eleven calls to open; then two more are added and written with two
    calls, the third and fourth being the unlocking and the closing; the next call of all
    would have failed.  The same for an index of two pairs: two calls to open, three to
    close. *)
Example C135_case :
  (let f := File KOs (delta_image 0 [op_record 43 1 2; op_record 45 3 4]) 0 false (repeat FOk 11 ++ repeat FOk 4 ++ [FErr 0]) [] in
   match d_open f with
   | (_, Ret s) => f_env (ds_file s) = repeat FOk 4 ++ [FErr 0] /\
     match d_close 4096 (Shuffle _ (fun l => l) (fun l => reflexivity l)) (d_add 43 5 6 (d_add 43 7 8 s)) with
     | (s', Ret tt) => f_env (ds_file s') = [FErr 0] /\ f_closed (ds_file s') = true /\ (length (f_data (ds_file s')) = 86)%nat
     | _ => False
     end
   | _ => False
   end) /\
  (let f := File KOs (index_image 0 [(1, 2); (3, 4)]) 0 false (repeat FOk 2 ++ repeat FOk 3 ++ [FErr 0]) [] in
   match i_open 4096 4096 true f with
   | (_, Ret s) => f_env (is_file s) = repeat FOk 3 ++ [FErr 0] /\
     match i_close 4096 (Shuffle _ (fun l => l) (fun l => reflexivity l)) s with
     | (s', Ret tt) => f_env (is_file s') = [FErr 0] /\ f_closed (is_file s') = true
     | _ => False
     end
   | _ => False
   end).
Proof. vm_compute. repeat split. Qed.
