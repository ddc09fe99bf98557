(** What SetPrevious refuses, and calling it again: C140. *)
From Verif Require Import Base GoIO Lock Profile Recdb SpecFile SpecLock SpecRecdb SpecCrash RecdbSession
  GoIOFacts CodecFacts LockFacts FileBufferFacts DeltaFacts RecdbFacts RecdbCrashFacts RecdbGuardFacts
  PropIO PropRecdb PropRecdbCrash.

(** * C140 *)

(** With no entry returned since the iterator was made or rewound, whatever the file
    contains and whether or not the seek works, the call is refused and leaves the iterator
    and the file as they were. *)
Theorem C140_at_the_start :
  (forall f f' it e, r_new_iterator f = (f', Ret it) -> exists x, r_set_previous e it = (it, Err x)) /\
  (forall rsz it e, let it' := fst (r_op rsz OpRewind it) in exists x, r_set_previous e it' = (it', Err x)).
Proof.
  split.
  - intros f f' it e E. apply set_previous_start. unfold r_new_iterator in E.
    match type of E with (match ?m f with _ => _ end) = _ => destruct (m f) as [g [h|?| |]] end; [|discriminate E..].
    destruct (negb _); [discriminate E|]. injection E as _ <-. done.
  - intros rsz it e. cbv zeta. apply set_previous_start. cbn [r_op]. unfold r_rewind.
    destruct (fseek recdb_entries_offset SeekStart (it_file it)) as [g o]. done.
Qed.
Print Assumptions C140_at_the_start.

(** So is, on a sound database, every call with a capacity other than that of the entry last
    returned, however that entry was reached and however much is read ahead. *)
Theorem C140_other_capacity_partial :
  forall rsz f l tail k s0 ops e, (0 < rsz)%nat -> usable f ->
  Forall stored_typed l -> Forall stored_fits l -> Z.of_nat (length l) < 2 ^ 32 ->
  f_data f = recdb_image 0 l ++ tail -> entries_read (length l) 0 ops = S k -> l !! k = Some s0 ->
  re_cap e <> st_cap s0 ->
  exists it it1 x, r_new_iterator f = (it_file it, Ret it) /\ r_ops rsz ops it = (it1, iterate l 0 ops) /\
    r_set_previous e it1 = (it1, Err x).
Proof.
  intros rsz f l tail k s0 ops e Hr (Hc & He & _) Hty Hfi Hn Hd Hend Hk Hcap.
  set (hdr := recdb_header 1 like_type 0 (Z.of_nat (length l))).
  assert (Hdb : database hdr l tail f).
  { split; [done|]. split; [|done]. rewrite Hd. unfold recdb_image. by rewrite <- app_assoc. }
  destruct (new_iterator_ok 1 like_type l tail f) as (it & E & H & _ & _); [done|unfold is_u32; lia|by split|done|].
  destruct (ops_at rsz _ _ _ f Hr Hdb ops 0 it H) as (it1 & E1 & H1). rewrite Hend in H1.
  destruct (ia_entry _ _ _ _ _ H1) as (s1 & Hs1 & Hre); [lia|].
  replace (S k - 1)%nat with k in Hs1 by lia. rewrite Hk in Hs1. injection Hs1 as <-.
  destruct (set_previous_other e it1) as [x Ex]; [by rewrite Hre|].
  exists it, it1, x. done.
Qed.
Print Assumptions C140_other_capacity_partial.

(** Each of the entries [ss] is given to SetPrevious, one after the other, and each call
    succeeds. *)
Fixpoint set_all (ss : list stored) (it it' : iter) : Prop :=
  match ss with
  | [] => it' = it
  | s :: ss => exists it1, r_set_previous (entry_of s) it = (it1, Ret tt) /\ set_all ss it1 it'
  end.

Lemma set_all_at hdr tail k ss : forall l f it s0, database hdr l tail f -> it_at tail l f (S k) it ->
  br_buf (it_reader it) = [] -> l !! k = Some s0 ->
  Forall (fun s => stored_typed s /\ stored_fits s /\ Forall (fun b => b = 0) (st_free s) /\ st_cap s = st_cap s0) ss ->
  exists it', set_all ss it it' /\ database hdr (<[k := default s0 (last ss)]> l) tail (it_file it') /\
    it_at tail (<[k := default s0 (last ss)]> l) (it_file it') (S k) it'.
Proof.
  induction ss as [|s ss IH]; intros l f it s0 Hdb H Hbuf Hk Hss.
  - exists it. split; [done|]. cbn [last default]. rewrite list_insert_id by done.
    destruct (fframe_fields _ _ (ia_frame _ _ _ _ _ H)) as (Hdat & _).
    split.
    + destruct Hdb as (? & ? & ?). split; [done|]. by rewrite Hdat.
    + destruct H. by split.
  - apply Forall_cons in Hss as [(Hts & Hfs & Hz & Hcap) Hss].
    destruct (set_previous_step hdr l tail f k it s s0) as (it1 & E1 & Hdb1 & H1 & Hb1); [done..|].
    assert (Hk1 : (k < length l)%nat) by (by eapply lookup_lt_Some).
    destruct (IH (<[k := s]> l) (it_file it1) it1 s) as (it' & Ha & Hdb' & H'); [done|done|done|by apply list_lookup_insert| |].
    { eapply Forall_impl; [exact Hss|]. intros x (? & ? & ? & Hx). by rewrite Hcap. }
    exists it'. rewrite !list_insert_insert in *.
    assert (El : default s0 (last (s :: ss)) = default s (last ss)).
    { destruct ss as [|s' ss]; [done|]. rewrite last_cons_cons.
      destruct (last (s' :: ss)) eqn:El; [done|]. apply last_None in El. done. }
    rewrite El. split; [|done]. exists it1. done.
Qed.

(** A successful SetPrevious can be followed by others: all of them replace the same entry,
    the last one stays, and the iteration goes on behind it. *)
Theorem C140_again_partial :
  forall rsz f l tail k s0 s it1 ss, ready rsz f l tail k s0 s it1 ->
  Forall (fun s => stored_typed s /\ stored_fits s /\ Forall (fun b => b = 0) (st_free s) /\ st_cap s = st_cap s0) ss ->
  exists it2, set_all (s :: ss) it1 it2 /\
    f_data (it_file it2) = recdb_image 0 (<[k := List.last ss s]> l) ++ tail /\
    forall ops, snd (r_ops rsz ops it2) = iterate (<[k := List.last ss s]> l) (S k) ops.
Proof.
  intros rsz f l tail k s0 s it1 ss Hrd Hss.
  destruct (ready_facts _ _ _ _ _ _ _ _ Hrd) as (Hfd & Hlens & Hpos & H1 & _).
  destruct Hrd as (Hr & (Hc & He & _) & Hd & Hb & Hty & Hfi & Hn & Hk & Hts & Hfs & Hz & Hcap & it & ops0 & E & E1 & Hend & Hbuf).
  set (hdr := recdb_header 1 like_type 0 (Z.of_nat (length l))) in *.
  assert (Hdb : database hdr l tail f).
  { split; [done|]. split; [|done]. rewrite Hd. unfold recdb_image. by rewrite <- app_assoc. }
  destruct (set_all_at hdr tail k (s :: ss) l f it1 s0) as (it2 & Ha & Hdb2 & H2); [done|done|done|done| |].
  { apply Forall_cons. done. }
  assert (El : default s0 (last (s :: ss)) = List.last ss s).
  { clear. revert s. induction ss as [|x ss IH]; intros s; [done|]. rewrite last_cons_cons. rewrite (IH x).
    destruct ss as [|y ss]; [done|]. cbn [List.last]. clear. revert y. induction ss as [|z ss IH]; intros y; [done|].
    cbn [List.last] in *. destruct ss; [done|]. apply IH. done. }
  rewrite El in *. exists it2. split; [done|]. split.
  - destruct Hdb2 as (_ & -> & _). unfold recdb_image. rewrite insert_length, <- app_assoc. done.
  - intros ops. destruct (ops_at rsz hdr _ _ _ Hr Hdb2 ops _ it2 H2) as (it' & -> & _). done.
Qed.
Print Assumptions C140_again_partial.

(** A file that announces two entries and breaks off behind the capacity of the second. *)
Definition ex_f4 : file := open_file KOs (recdb_header 1 like_type 0 2 ++ stored_bytes ex_b ++ be32 31).
Definition ex_i4 : iter := Iter (RHeader 1 like_type 0 2) (new_breader (fset_pos 19 ex_f4)) 0 zero_entry.

(** When a Next has failed in between, a capacity other than that of the entry last returned
    need not be refused... *)
Theorem C140_other_capacity_refuted :
  ~ (forall rsz f it s0 e, (0 < rsz)%nat -> usable f -> Forall is_byte (f_data f) ->
     r_new_iterator f = (it_file it, Ret it) ->
     snd (r_ops rsz [OpNext; OpNext] it) = [entry_answer s0; AFail] -> re_cap e <> st_cap s0 ->
     exists x, snd (r_set_previous e (fst (r_ops rsz [OpNext; OpNext] it))) = Err x).
Proof.
  intros H. destruct (H 4096%nat ex_f4 ex_i4 ex_b (entry_of ex_c)) as [x Ex];
    [lia|split; [done|split; [done|by left]]|by repeat constructor|by vm_compute|by vm_compute|by vm_compute|].
  vm_compute in Ex. discriminate Ex.
Qed.
Print Assumptions C140_other_capacity_refuted.

(** ... and the capacity of that entry need not be accepted. *)
Theorem C140_same_capacity_refuted :
  ~ (forall rsz f it s0 s, (0 < rsz)%nat -> usable f -> Forall is_byte (f_data f) ->
     r_new_iterator f = (it_file it, Ret it) ->
     snd (r_ops rsz [OpNext; OpNext] it) = [entry_answer s0; AFail] ->
     stored_typed s -> stored_fits s -> st_cap s = st_cap s0 ->
     snd (r_set_previous (entry_of s) (fst (r_ops rsz [OpNext; OpNext] it))) = Ret tt).
Proof.
  intros H. destruct ex_b'_ok as [Hs1 Hs2]. specialize (H 4096%nat ex_f4 ex_i4 ex_b ex_b').
  assert (Ex : snd (r_set_previous (entry_of ex_b') (fst (r_ops 4096 [OpNext; OpNext] ex_i4))) = Ret tt).
  { apply H; [lia|split; [done|split; [done|by left]]|by repeat constructor|by vm_compute|by vm_compute|done|done|done]. }
  vm_compute in Ex. discriminate Ex.
Qed.
Print Assumptions C140_same_capacity_refuted.

(** On that file the call with the wrong capacity reports success and has destroyed the one
    entry there was.  Below, a rewrite followed by a second one, and a refused call. *)
Example C140_case :
  (let '(it2, o) := r_set_previous (entry_of ex_c) (fst (r_ops 4096 [OpNext; OpNext] ex_i4)) in
   o = Ret tt /\ snd (r_ops 4096 [OpRewind; OpNext] it2) = [ADone; AFail]) /\
  ready 4096 ex_f1 [ex_b] [] 0 ex_b ex_b' (ex_at 4096 ex_f1 1) /\
  (exists it2, set_all [ex_b'; ex_like] (ex_at 4096 ex_f1 1) it2 /\ f_data (it_file it2) = recdb_image 0 [ex_like]) /\
  re_cap (entry_of ex_c) <> st_cap ex_b.
Proof.
  split; [by vm_compute|]. split; [apply ex_rewriting|]. split; [|done].
  exists (fst (r_set_previous (entry_of ex_like) (fst (r_set_previous (entry_of ex_b') (ex_at 4096 ex_f1 1))))).
  split; [|by vm_compute].
  exists (fst (r_set_previous (entry_of ex_b') (ex_at 4096 ex_f1 1))). split; [by vm_compute|].
  eexists. split; [by vm_compute|]. by vm_compute.
Qed.
