(** The recdb iterator when reads of the file fail: C121. *)
From Verif Require Import Base GoIO Profile Recdb SpecFile SpecRecdb RecdbSession
  GoIOFacts FaultyFacts FlakyReadFacts RecdbFacts RecdbFaultFacts.

(** * C121 *)

(** An entry of user 7, who likes item 1, in 50 bytes of which the last 21 are unused. *)
Definition roomy : stored := Stored 50 0 7 [1] [] (zeros 21).

Lemma roomy_ok : stored_typed roomy /\ stored_fits roomy.
Proof.
  split; [|done]. repeat (split; [done|]). split; [|split; [by constructor|done]].
  by repeat (apply Forall_cons; split; [done|]).
Qed.

(** A read fails after the used part of the entry. Next reports the error; called again
    it takes the unused bytes for an entry of user 0, and the iteration is over. *)
Definition roomy_file : file := File KOs (recdb_image 0 [roomy]) 0 false [FOk; FOk; FErr 29] [].

Theorem C121_next_after_error_refuted :
  ~ (forall rsz f l it ops, (0 < rsz)%nat -> f_closed f = false ->
     Forall stored_typed l -> Forall stored_fits l -> Z.of_nat (length l) < 2 ^ 32 ->
     f_data f = recdb_image 0 l -> r_new_iterator f = (it_file it, Ret it) ->
     iterates l 0 ops (snd (r_ops rsz ops it))).
Proof.
  intros H. pose (it := Iter (RHeader 1 like_type 0 1)
    (new_breader (File KOs (recdb_image 0 [roomy]) 19 false [FErr 29] [])) 0 zero_entry).
  specialize (H 4096%nat roomy_file [roomy] it [OpNext; OpNext]).
  assert (E : snd (r_ops 4096 [OpNext; OpNext] it) = [AFail; AEntry 0 0 0 [] []]) by by vm_compute.
  rewrite E in H. cbn [iterates] in H.
  destruct H as [[_ H] | (s & [= <-] & [=] & _)].
  - lia.
  - done.
  - by constructor; [apply roomy_ok|constructor].
  - by constructor; [apply roomy_ok|constructor].
  - by vm_compute.
  - done.
  - by vm_compute.
  - destruct H as [[[=] _] | (s & [= <-] & [=] & _)].
Qed.
Print Assumptions C121_next_after_error_refuted.

(** The file is never changed; as long as no Next has failed since the last Rewind every
    entry returned is the one whose turn it is, so no error is mistaken for an entry or
    for the end; Rewind works after a failure. *)
Theorem C121_iteration_partial :
  forall rsz f l tail, (0 < rsz)%nat -> f_closed f = false ->
  Forall stored_typed l -> Forall stored_fits l -> Z.of_nat (length l) < 2 ^ 32 ->
  f_data f = recdb_image 0 l ++ tail ->
  exists f' o, r_new_iterator f = (f', o) /\ f_data f' = f_data f /\
    ((exists e, o = Err e) \/
     exists it, o = Ret it /\ it_file it = f' /\
       forall ops, let '(it', answers) := r_ops rsz ops it in
         iterates_until l false 0 ops answers /\ f_data (it_file it') = f_data f).
Proof.
  intros rsz f l tail Hr Hc Hty Hfi Hn Hd.
  assert (Hdb : database (recdb_header 1 like_type 0 (Z.of_nat (length l))) l tail f).
  { split; [done|]. split; [|done]. rewrite Hd. unfold recdb_image. by rewrite <- app_assoc. }
  destruct (new_iterator_flaky 1 like_type l tail f) as (f' & o & E & Hk & Ho); [done|unfold is_u32; lia|done|done|].
  exists f', o. split; [done|]. split; [apply (fkept_fields _ _ Hk)|].
  destruct Ho as [He | (it & -> & -> & H)]; [by left|right]. exists it. split; [done|]. split; [done|].
  intros ops. destruct (ops_flaky rsz _ l tail f Hr Hdb ops false 0 it H) as (it' & as' & lost' & k' & -> & Ha & H').
  split; [done|]. apply (fkept_fields _ _ (im_frame _ _ _ _ _ _ H')).
Qed.
Print Assumptions C121_iteration_partial.

(** Whatever has failed before, Rewind starts an iteration that answers as it should once
    nothing fails any more. *)
Theorem C121_rewind_recovers :
  forall rsz f l tail it ops it' answers, (0 < rsz)%nat -> f_closed f = false ->
  Forall stored_typed l -> Forall stored_fits l -> Z.of_nat (length l) < 2 ^ 32 ->
  f_data f = recdb_image 0 l ++ tail -> snd (r_new_iterator f) = Ret it ->
  r_ops rsz ops it = (it', answers) -> f_env (it_file it') = [] ->
  forall more, snd (r_ops rsz (OpRewind :: more) it') = ADone :: iterate l 0 more.
Proof.
  intros rsz f l tail it ops it' answers Hr Hc Hty Hfi Hn Hd Ho Hops He more.
  assert (Hdb : database (recdb_header 1 like_type 0 (Z.of_nat (length l))) l tail f).
  { split; [done|]. split; [|done]. rewrite Hd. unfold recdb_image. by rewrite <- app_assoc. }
  destruct (new_iterator_flaky 1 like_type l tail f) as (f' & o & E & Hk & Hor); [done|unfold is_u32; lia|done|done|].
  rewrite E in Ho. cbn [snd] in Ho. subst o. destruct Hor as [[e [=]] | (it0 & [= <-] & _ & H)].
  destruct (ops_flaky rsz _ l tail f Hr Hdb ops false 0 it H) as (it2 & as' & lost' & k' & E2 & _ & H2).
  rewrite Hops in E2. injection E2 as <- <-.
  destruct (rewind_quiet _ l tail f _ _ it' Hdb H2 He) as (it1 & E1 & H1).
  assert (Hdb' : database (recdb_header 1 like_type 0 (Z.of_nat (length l))) l tail (it_file it')).
  { destruct Hdb as (? & Hd' & ?). split; [done|]. split; [|done]. rewrite <- Hd'. apply (fkept_fields _ _ (im_frame _ _ _ _ _ _ H2)). }
  cbn [r_ops r_op]. rewrite E1. destruct (ops_at rsz _ l tail _ Hr Hdb' more 0 it1 H1) as (it3 & -> & _). done.
Qed.
Print Assumptions C121_rewind_recovers.

(** The read fails in the middle of the second entry: the first one is right, the error
    is reported, and after Rewind both are found. *)
Example C121_case :
  let l := [roomy; roomy] in
  let f := File KOs (recdb_image 0 l ++ [9]) 5 false [FOk; FOk; FErr 60] [] in
  exists it, snd (r_new_iterator f) = Ret it /\
    snd (r_ops 4096 [OpHasNext; OpNext; OpNext; OpHasNext; OpRewind; OpNext; OpNext; OpHasNext; OpNext] it) =
    [AHas true; entry_answer roomy; AFail; AHas true; ADone; entry_answer roomy; entry_answer roomy; AHas false; AFail].
Proof.
  intros l f. exists (Iter (RHeader 1 like_type 0 2)
    (new_breader (File KOs (recdb_image 0 l ++ [9]) 19 false [FErr 60] [])) 0 zero_entry).
  by vm_compute.
Qed.
