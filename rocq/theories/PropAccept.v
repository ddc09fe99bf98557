(** Property C133: which files the storages take for their own. *)
From Verif Require Import Base GoIO Lock Delta Index Recdb SpecFile SpecLock SpecDelta SpecIndex SpecRecdb GoIOFacts
  CodecFacts LockFacts FileBufferFacts DeltaFacts DeltaStoreFacts DeltaSession DeltaHistFacts DeltaForeignFacts IndexFacts
  RecdbFacts AcceptFacts.

(** * C133
    Full claim: a file whose header names another format version than the one the program
    knows, or another type of entries, is refused.  False of all three kinds of files:
    the byte is read and never looked at.  The delta storage and the index even write
    their own version over it when they are closed, so that the file is labelled as
    something it never was. *)
Theorem C133_delta_version_refuted :
  forall bsz sh f v records, usable f ->
  Forall (fun r => length r = 18%nat /\ Forall is_byte r) records -> Z.of_nat (length records) + 1 < 2 ^ 32 ->
  f_data f = delta_magic ++ [v; 0] ++ be32 (Z.of_nat (length records)) ++ concat records ->
  exists f' s s', d_open f = (f', Ret s) /\ d_close bsz sh s = (s', Ret tt) /\
    f_data (ds_file s') = delta_image 0 records.
Proof.
  intros bsz sh f v rs Hu Hr Hl Hd.
  assert (H18 : Forall (fun r => length r = 18%nat) rs) by (eapply Forall_impl; [exact Hr|]; by intros r []).
  assert (Hby : Forall (Forall is_byte) rs) by (eapply Forall_impl; [exact Hr|]; by intros r []).
  assert (Hd' : f_data f = delta_magic ++ v :: 0 :: be_enc 4 (Z.of_nat (length rs)) ++ concat rs ++ []).
  { rewrite Hd, app_nil_r. done. }
  destruct (foreign_open f v rs [] Hu Hd') as (f' & s & t0 & ops & Ho & F & _); [lia|done|done|].
  destruct (open_beginning f v rs [] Hu Hd') as (f2 & p & _ & _ & _ & _ & _ & Ho2); [lia|done|].
  destruct (foreign_close_new bsz sh _ _ _ _ _ _ F) as (s' & Hc & _ & Hd2 & _).
  exists f', s, s'. split; [done|]. split; [done|]. rewrite Ho in Ho2. injection Ho2 as _ ->. rewrite Hd2. cbn [ds_new app].
  assert (visit sh ∅ = []) as ->; [|]. 
  { apply Permutation_nil. symmetry. apply visit_perm. }
  rewrite map_length, Nat.add_0_r, !app_nil_r. done.
Qed.
Print Assumptions C133_delta_version_refuted.

Theorem C133_index_version_refuted :
  forall bsz rsz c sh f v n tail, (0 < rsz)%nat -> usable f ->
  is_u32 n -> 16 * n <= Z.of_nat (length tail) -> f_data f = index_magic ++ [v; 0] ++ be32 n ++ tail ->
  exists f' s s' rest, i_open bsz rsz c f = (f', Ret s) /\ i_close bsz sh s = (s', Ret tt) /\
    f_data (is_file s') = index_magic ++ [1; 0] ++ rest.
Proof.
  intros bsz rsz c sh f v n tail Hr Hu Hn Hl Hd.
  destruct (i_open_unlocked bsz rsz c f v (be32 n) tail Hr (usable_healthy f Hu) eq_refl Hd) as (p & Hp & Ho). cbv zeta in Ho.
  change (be32 n) with (be_enc 4 n) in Ho. rewrite be_dec_enc in Ho by (rewrite pow256_4; apply Hn).
  destruct (index_entries_load (Z.to_nat n) ∅ tail) as (m & bs' & El); [lia|]. rewrite El in Ho. cbn [snd] in Ho.
  eexists _, _, _, _. split; [exact Ho|]. split.
  - apply i_close_ok; [done|]. right. cbn [is_file f_data]. rewrite app_length. cbn. lia.
  - cbn [is_file is_closer is_map]. rewrite close_if_data.
    rewrite (isaved_data _ _ _ v 1 tail (be_enc 4 n)) by done. unfold hdr0. rewrite <- app_assoc. reflexivity.
Qed.
Print Assumptions C133_index_version_refuted.

Theorem C133_recdb_version_refuted :
  forall f v t n tail, usable f -> length t = 8%nat -> is_u32 n -> Forall is_byte (f_data f) ->
  f_data f = recdb_header v t 0 n ++ tail ->
  exists f' it, r_new_iterator f = (f', Ret it).
Proof.
  intros f v t n tail Hu Ht Hn Hb E. destruct (new_iterator_cases f Hu Hb) as [(v' & t' & n' & tail' & _ & _ & _ & f' & it & Ho & _)|[H _]].
  - eauto.
  - exfalso. apply H. eauto 10.
Qed.
Print Assumptions C133_recdb_version_refuted.

(** What is looked at, exactly: the first bytes, the lock byte, and whether all the
    announced records are there.  Everything else is refused, and the file is left as it
    was; only an index that is too short is marked as locked from then on. *)
Theorem C133_delta_partial :
  forall f, usable f -> Forall is_byte (f_data f) ->
  let mine := f_data f = [] \/ exists v n tail, f_data f = delta_magic ++ [v; 0] ++ be32 n ++ tail /\ is_u32 n /\
    18 * n <= Z.of_nat (length tail) in
  (mine -> exists f' s, d_open f = (f', Ret s)) /\
  (~ mine -> exists f' e, d_open f = (f', Err e) /\ f_data f' = f_data f).
Proof.
  intros f Hu Hb mine. destruct (decide (f_data f = [])) as [E|Hne].
  - split; [|intros H; exfalso; apply H; by left]. intros _.
    destruct (d_open_empty f (usable_healthy f Hu) E) as (log & H). cbv zeta in H. eauto.
  - destruct (delta_open_cases f Hu Hne Hb) as [(v & n & tail & E & Hn & Hl & f' & s & Ho & _)|[H (f' & e & Ho & Hd)]].
    + split; [eauto|]. intros H. exfalso. apply H. right. eauto 10.
    + split; [|eauto]. intros [E|E]; [done|]. by destruct (H E).
Qed.
Print Assumptions C133_delta_partial.

Theorem C133_index_partial :
  forall bsz rsz c f, (0 < rsz)%nat -> usable f -> Forall is_byte (f_data f) ->
  let mine := f_data f = [] \/ exists v n tail, f_data f = index_magic ++ [v; 0] ++ be32 n ++ tail /\ is_u32 n /\
    16 * n <= Z.of_nat (length tail) in
  (mine -> exists f' s, i_open bsz rsz c f = (f', Ret s)) /\
  (~ mine -> exists f' e, i_open bsz rsz c f = (f', Err e) /\
    (f_data f' = f_data f \/
     exists v rest, f_data f = index_magic ++ [v; 0] ++ rest /\ f_data f' = index_magic ++ [v; 1] ++ rest)).
Proof.
  intros bsz rsz c f Hr Hu Hb mine. destruct (decide (f_data f = [])) as [E|Hne].
  - split; [|intros H; exfalso; apply H; by left]. intros _.
    destruct (i_open_empty bsz rsz c f (usable_healthy f Hu) E) as (? & _ & H). cbv zeta in H. eauto.
  - destruct (index_open_cases bsz rsz c f Hr Hu Hne Hb) as [(v & n & tail & E & Hn & Hl & f' & s & Ho)|[H (f' & e & Ho & Hd)]].
    + split; [eauto|]. intros H. exfalso. apply H. right. eauto 10.
    + split; [|eauto]. intros [E|E]; [done|]. by destruct (H E).
Qed.
Print Assumptions C133_index_partial.

Theorem C133_recdb_partial :
  forall f, usable f -> Forall is_byte (f_data f) ->
  let mine := exists v t n tail, f_data f = recdb_header v t 0 n ++ tail /\ length t = 8%nat /\ is_u32 n in
  (mine -> exists f' it, r_new_iterator f = (f', Ret it) /\ f_data f' = f_data f) /\
  (~ mine -> exists f' e, r_new_iterator f = (f', Err e) /\ f_data f' = f_data f).
Proof.
  intros f Hu Hb mine. destruct (new_iterator_cases f Hu Hb) as [(v & t & n & tail & E & Ht & Hn & f' & it & Ho & Hd)|[H Ho]].
  - split; [eauto|]. intros H. exfalso. apply H. unfold mine. eauto 10.
  - split; [|done]. intros E. by destruct (H E).
Qed.
Print Assumptions C133_recdb_partial.

(** Version 7 of each kind of file, and a database of ratings. *)
Example C133_case :
  let r1 := op_record 43 1 10 in
  let d := delta_magic ++ [7; 0] ++ be32 1 ++ r1 in
  let i := index_magic ++ [7; 0] ++ be32 1 ++ index_pair (1, 10) in
  let p := recdb_header 7 [82; 65; 84; 73; 78; 71; 32; 32] 0 0 in
  (length r1 = 18%nat /\ Forall is_byte r1) /\ Forall is_byte p /\
  (match d_open (open_file KOs d) with (_, Ret s) => d_get s 1 10 = Some 43 | _ => False end) /\
  (match i_open 16 16 true (open_file KOs i) with (_, Ret s) => i_get s 1 = Some 10 | _ => False end) /\
  (match r_new_iterator (open_file KOs p) with (_, Ret it) => r_has_next it = false | _ => False end) /\
  (** and what is refused *)
  (exists f' e, d_open (open_file KOs (delta_magic ++ [1; 0] ++ be32 2 ++ r1)) = (f', Err e)) /\
  (exists f' e, i_open 16 16 true (open_file KOs (index_magic ++ [1; 0] ++ be32 2 ++ index_pair (1, 10))) = (f', Err e) /\
    f_data f' = index_magic ++ [1; 1] ++ be32 2 ++ index_pair (1, 10)) /\
  (exists f' e, r_new_iterator (open_file KOs (recdb_header 1 like_type 1 0)) = (f', Err e)).
Proof.
  cbv zeta. split; [split; [done|]|].
  { rewrite Forall_forall. intros x Hx%elem_of_list_In. vm_compute in Hx. unfold is_byte. repeat (destruct Hx as [<-|Hx]; [lia|]). done. }
  split. { rewrite Forall_forall. intros x Hx%elem_of_list_In. vm_compute in Hx. unfold is_byte. repeat (destruct Hx as [<-|Hx]; [lia|]). done. }
  split; [by vm_compute|]. split; [by vm_compute|]. split; [by vm_compute|].
  split; [eexists _, _; by vm_compute|]. split; [|eexists _, _; by vm_compute].
  eexists _, _. split; vm_compute; reflexivity.
Qed.
