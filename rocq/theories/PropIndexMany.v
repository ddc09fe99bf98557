(** Property C98, index storage: more ids than the counter of the file can count. *)
From Verif Require Import Base GoIO Lock Index SpecFile SpecLock SpecIndex IndexSession GoIOFacts
  LockFacts IndexFacts IndexWideFacts PropIndex.

(** * C98 fails: whoever stores 2^32 ids finds none of them after Close and Open, although
    no call ever failed. *)
Theorem C98_index_many_refuted :
  exists bsz rsz c h s, isession bsz rsz c h s /\ (forall id, 0 <= id < 2 ^ 32 -> i_get s id = Some 7) /\
  forall sh : index_order, exists s', i_close bsz sh s = (s', Ret tt) /\
  forall f, usable f -> f_data f = f_data (is_file s') ->
  exists f' t, i_open bsz rsz c f = (f', Ret t) /\ forall id, i_get t id = None.
Proof.
  assert (exists N, Z.of_nat N = 2 ^ 32) as [N HN] by (exists (Z.to_nat (2 ^ 32)); apply Z2Nat.id; lia).
  assert (Hu0 : usable (open_file KOs [])) by (split; [done|]; split; [done|]; by left).
  destruct (i_open_empty 4096 4096 true (open_file KOs []) (usable_healthy _ Hu0) eq_refl) as (log & _ & Ho).
  cbn zeta in Ho. match type of Ho with _ = (?f, Ret ?s) => set (f0 := f) in *; set (s0 := s) in * end.
  assert (Hs0 : isession 4096 4096 true [] s0) by (by eapply isession_new).
  destruct (puts_session 4096 4096 true s0 N Hs0 eq_refl ltac:(lia)) as (Hs & Hz & Hl).
  exists 4096%nat, 4096%nat, true, (puts N), (i_calls (puts N) s0). split; [exact Hs|]. split.
  { intros id Hid. unfold i_get. rewrite Hl. case_decide; [done|lia]. }
  destruct (isession_wide 4096 4096 true _ _ ltac:(lia) Hs) as [g I]. intros sh.
  destruct (closed_image 4096 sh g _ I) as (s1 & tail & E & _ & _ & Hd1). exists s1. split; [exact E|].
  intros f Hu Hf. rewrite Hd1 in Hf.
  destruct (open_any 4096 4096 true f _ tail ltac:(lia) Hu (saved_typed sh _ (ii_typed _ _ I)) Hf) as (f1 & t & Ho1 & Hm & _).
  exists f1, t. split; [exact Ho1|]. intros id. unfold i_get. rewrite Hm.
  unfold counted. rewrite saved_length, Hz, HN. change (u32 (2 ^ 32)) with 0. cbn [Z.to_nat take imap]. apply lookup_empty.
Qed.
Print Assumptions C98_index_many_refuted.

(** * C98, what holds for any execution: Close writes every pair of the map once, and Open
    knows exactly the first of them, as many as their number modulo 2^32. *)
Theorem C98_index_reopen_partial :
  forall bsz rsz c h s (sh : index_order), (0 < rsz)%nat -> isession bsz rsz c h s ->
  exists s' l tail, i_close bsz sh s = (s', Ret tt) /\
    NoDup (map fst l) /\ (forall id v, In (id, v) l <-> i_get s id = Some v) /\
    f_data (is_file s') = index_image 0 l ++ tail /\
    forall f, usable f -> f_data f = f_data (is_file s') ->
    exists f' t, i_open bsz rsz c f = (f', Ret t) /\
      forall id v, i_get t id = Some v <-> In (id, v) (take (Z.to_nat (Z.of_nat (length l) mod 2 ^ 32)) l).
Proof.
  intros bsz rsz c h s sh Hrsz Hs. destruct (isession_wide bsz rsz c h s Hrsz Hs) as [g I].
  destruct (closed_image bsz sh g s I) as (s1 & tail & E & _ & _ & Hd1).
  set (l := shuf sh (map_to_list (is_map s))) in *.
  assert (Hp : l ≡ₚ map_to_list (is_map s)) by apply shuf_perm.
  assert (Hnd : NoDup (map fst l)).
  { change (NoDup (fst <$> l)). rewrite Hp. apply NoDup_fst_map_to_list. }
  exists s1, l, tail. split; [done|]. split; [exact Hnd|]. split.
  { intros id v. rewrite <- elem_of_list_In, Hp. apply elem_of_map_to_list. }
  split; [done|]. intros f Hu Hf. rewrite Hd1 in Hf.
  destruct (open_any bsz rsz c f _ tail Hrsz Hu (saved_typed sh _ (ii_typed _ _ I)) Hf) as (f1 & t & Ho1 & Hm & _).
  exists f1, t. split; [exact Ho1|]. intros id v. unfold i_get. rewrite Hm. fold l.
  change (take (Z.to_nat (Z.of_nat (length l) mod 2 ^ 32)) l) with (counted l).
  assert (Hnc : NoDup (counted l).*1).
  { unfold counted. rewrite fmap_take. change (map fst l) with (l.*1) in Hnd.
    rewrite <- (take_drop (Z.to_nat (u32 (Z.of_nat (length l)))) (l.*1)) in Hnd. by apply NoDup_app in Hnd as [? _]. }
  rewrite imap_nodup by exact Hnc. rewrite (right_id_L ∅ _).
  rewrite <- elem_of_list_In. symmetry. by apply elem_of_list_to_map.
Qed.
Print Assumptions C98_index_reopen_partial.

Example C98_index_case :
  let sh := Shuffle _ (fun l => l) (fun l => reflexivity l) : index_order in
  exists s s' t, isession 16 16 true [IvPut 1 10; IvPut 2 20; IvRemove 1] s /\
    i_close 16 sh s = (s', Ret tt) /\
    snd (i_open 16 16 true (open_file KOs (f_data (is_file s')))) = Ret t /\
    i_get t 2 = Some 20 /\ i_get t 1 = None.
Proof.
  cbn zeta.
  destruct (index_sessions_exist 16 16 true (open_file KOs []) [IvPut 1 10; IvPut 2 20; IvRemove 1]) as (f' & s & Ho & Hs).
  - lia.
  - split; [done|]. split; [done|]. by left.
  - done.
  - repeat (apply Forall_cons; split; [done|]). done.
  - vm_compute in Ho. injection Ho as <- <-. eexists _, _, _. split; [apply Hs|].
    split; [vm_compute; reflexivity|]. split; [vm_compute; reflexivity|]. by vm_compute.
Qed.
