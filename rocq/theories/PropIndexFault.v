(** Property C119: what Close of the index reports when calls on its file fail
    (internal/infra/index/storage.go). *)
From Verif Require Import Base GoIO Lock Index SpecFile SpecLock SpecCrash SpecIndex IndexSession GoIOFacts
  CodecFacts LockFacts FileBufferFacts DeltaStoreFacts IndexFacts PropIO PropIndex FaultyFacts IndexFaultFacts.

(** * C119

    [env] says which of the writes and closes that Close makes fail, and after how many
    bytes.  If Close reports success the file holds everything. *)
Theorem C119_success_is_saved :
  forall bsz rsz c h s env sh s' f, (0 < rsz)%nat -> isession bsz rsz c h s -> Z.of_nat (length h) < 2 ^ 32 ->
  i_close bsz sh (i_faults env s) = (s', Ret tt) ->
  usable f -> f_data f = f_data (is_file s') ->
  exists f' t, i_open bsz rsz c f = (f', Ret t) /\ forall id, i_get t id = index_value h id None.
Proof.
  intros bsz rsz c h s env sh s' f Hrsz Hs Hl Hcl Hu Hd.
  destruct (session_inv bsz rsz c h s Hrsz Hs Hl) as [I _].
  destruct (i_close_faulty bsz sh (i_faults env s)) as (s1 & [[E Hd1] | (e & j & E & _)]).
  - apply I.
  - apply (iinv_seek h s 6 I). lia.
  - rewrite E in Hcl. injection Hcl as <-.
    destruct (closed_image bsz sh h s I) as (s2 & tail & E2 & _ & Hf2 & Hd2).
    rewrite Hf2, close_if_data in Hd2. unfold i_faults in Hd1. cbn [is_file is_map] in Hd1.
    change (quiet _) with (quiet (is_file s)) in Hd1. rewrite quiet_id in Hd1 by apply I.
    rewrite Hd2 in Hd1. rewrite Hd1 in Hd.
    destruct (open_image_inv bsz rsz c f (shuf sh (map_to_list (is_map s))) tail) as (f1 & t & E3 & _ & _ & Hm & _); try done.
    + apply saved_typed, I.
    + rewrite saved_length. pose proof (ii_size _ _ I). lia.
    + exists f1, t. split; [done|]. intros id. unfold i_get. rewrite Hm, imap_saved. apply I.
  - rewrite E in Hcl. discriminate Hcl.
Qed.
Print Assumptions C119_success_is_saved.

(** Close always ends, with a success or an error. *)
Theorem C119_close_ends :
  forall bsz rsz c h s env sh, (0 < rsz)%nat -> isession bsz rsz c h s -> Z.of_nat (length h) < 2 ^ 32 ->
  exists s', i_close bsz sh (i_faults env s) = (s', Ret tt) \/ exists e, i_close bsz sh (i_faults env s) = (s', Err e).
Proof.
  intros bsz rsz c h s env sh Hrsz Hs Hl. destruct (session_inv bsz rsz c h s Hrsz Hs Hl) as [I _].
  destruct (i_close_faulty bsz sh (i_faults env s)) as (s1 & [[E _] | (e & j & E & _)]).
  - apply I.
  - apply (iinv_seek h s 6 I). lia.
  - exists s1. by left.
  - exists s1. right. by exists e.
Qed.
Print Assumptions C119_close_ends.

(** The index opened from a file holding the pairs [l0]; calls [h] are made, and the
    following Close fails.  [f] is the file when it is opened the next time. *)
Definition failed_close bsz rsz (c : bool) l0 tail h (s0 s : istore) (f : file) : Prop :=
  exists f0 f0' env sh s' e,
    usable f0 /\ Forall (fun x => is_u64 (fst x) /\ is_u64 (snd x)) l0 /\
    f_data f0 = index_image 0 l0 ++ tail /\ i_open bsz rsz c f0 = (f0', Ret s0) /\
    Forall iv_typed h /\ Z.of_nat (length l0 + length h) < 2 ^ 32 /\
    s = i_calls h s0 /\ i_close bsz sh (i_faults env s) = (s', Err e) /\
    usable f /\ f_data f = f_data (is_file s').

(** Full claim: after a failed Close the next Open refuses the file or finds the old map
    or the new one.  False: the unlocked header with the new number of pairs is already
    there when writing the pairs fails, and nothing locks the file again. *)
Theorem C119_failed_close_refuted :
  ~ (forall bsz rsz c l0 tail h s0 s f f' t, (0 < rsz)%nat ->
     failed_close bsz rsz c l0 tail h s0 s f ->
     i_open bsz rsz c f = (f', Ret t) ->
     (forall id, i_get t id = i_get s0 id) \/ (forall id, i_get t id = i_get s id)).
Proof.
  intros H.
  set (sh := Shuffle _ (fun l : list (Z * Z) => l) (fun l => reflexivity l)).
  set (f0 := open_file KOs (index_image 0 [(1, 10); (2, 20)])).
  set (h := [IvRemove 1]). set (env := [FOk; FErr 0]).
  set (s0 := match i_open 16 16 true f0 with (_, Ret s) => s | _ => IStore ∅ f0 true end).
  set (s := i_calls h s0). set (s' := fst (i_close 16 sh (i_faults env s))).
  set (f := open_file KOs (f_data (is_file s'))).
  set (t := match i_open 16 16 true f with (_, Ret s) => s | _ => IStore ∅ f0 true end).
  destruct (H 16%nat 16%nat true [(1, 10); (2, 20)] [] h s0 s f (fst (i_open 16 16 true f)) t) as [Hx | Hx].
  - lia.
  - exists f0, (fst (i_open 16 16 true f0)), env, sh, s', (EMsg "failed flush buffer").
    split; [split; [done|split; [done|by left]]|].
    split; [repeat (apply Forall_cons; split; [done|]); done|].
    split; [done|]. split; [by vm_compute|]. split; [by repeat (apply Forall_cons; split; [done|])|].
    split; [done|]. split; [done|]. split; [by vm_compute|].
    split; [split; [done|split; [done|by left]]|done].
  - by vm_compute.
  - specialize (Hx 2). by vm_compute in Hx.
  - specialize (Hx 1). by vm_compute in Hx.
Qed.
Print Assumptions C119_failed_close_refuted.

(** The true part: a Close that fails leaves the file as if the process had died during
    Close (so that the theorems of C33 apply) ... *)
Theorem C119_failed_close_partial :
  forall bsz rsz c l0 tail h s0 s f, (0 < rsz)%nat ->
  failed_close bsz rsz c l0 tail h s0 s f ->
  exists j, crash_in_close bsz rsz c l0 tail h s0 s j f.
Proof.
  intros bsz rsz c l0 tail h s0 s f Hrsz (f0 & f0' & env & sh & s' & e & Hu0 & Ht0 & Hd0 & Ho & Hth & Hlen & Hs & Hcl & Hu & Hd).
  destruct (open_image_inv bsz rsz c f0 l0 tail) as (f1 & s1 & E & Hf & Hc & Hm & Hd1 & _ & Hh & Hsk & _); [done|done|done|lia|done|].
  rewrite E in Ho. injection Ho as <- <-.
  assert (I0 : iinv (map (fun x => IvPut (fst x) (snd x)) l0) s1).
  { constructor; rewrite ?Hf, ?Hm; try done.
    + rewrite Hd1, image_shape. eexists _, _. split; [|done]. apply be_enc_length.
    + intros id. apply imap_lookup.
    + by apply imap_typed.
    + rewrite map_length. rewrite imap_size, map_size_empty. lia. }
  pose proof (calls_inv h _ s1 I0 Hth) as I. rewrite <- Hs in I.
  destruct (i_close_faulty bsz sh (i_faults env s)) as (s2 & [[E2 _] | (e2 & j & E2 & Hj)]).
  - apply I.
  - by apply (iinv_seek _ _ 6 I); lia.
  - rewrite E2 in Hcl. discriminate Hcl.
  - rewrite E2 in Hcl. inversion Hcl; subst s2. unfold i_faults in Hj. cbn [is_file is_map] in Hj.
    change (quiet _) with (quiet (is_file s)) in Hj. rewrite quiet_id in Hj by apply I.
    destruct (closed_image bsz sh _ s I) as (s3 & tl & E3 & _ & Hf3 & _).
    exists j, f0, f1, sh, s3. do 8 (split; [done|]). split; [done|].
    rewrite Hd, Hj, Hf3. unfold crash_image, written_by. by rewrite close_if_log.
Qed.
Print Assumptions C119_failed_close_partial.

(** ... and the first Close of a new index, when it fails, leaves a file that is refused,
    or holds the empty index it was created with, or the index being saved. *)
Theorem C119_failed_first_close_partial :
  forall bsz rsz c f0 f0' s0 h s env sh s' e f, (0 < rsz)%nat ->
  usable f0 -> f_data f0 = [] -> i_open bsz rsz c f0 = (f0', Ret s0) ->
  Forall iv_typed h -> Z.of_nat (length h) < 2 ^ 32 ->
  s = i_calls h s0 -> i_close bsz sh (i_faults env s) = (s', Err e) ->
  usable f -> f_data f = f_data (is_file s') ->
  (exists f' e, i_open bsz rsz c f = (f', Err e)) \/
  (exists f' t, i_open bsz rsz c f = (f', Ret t) /\
     ((forall id, i_get t id = None) \/ (forall id, i_get t id = i_get s id))).
Proof.
  intros bsz rsz c f0 f0' s0 h s env sh s' e f Hrsz Hu0 Hd0 Ho Hth Hlen Hs Hcl Hu Hd.
  pose proof (isession_new bsz rsz c _ _ _ Hu0 Hd0 Ho) as S0.
  destruct (session_inv bsz rsz c [] s0 Hrsz S0) as [I0 _]; [cbn; lia|].
  pose proof (calls_inv h _ s0 I0 Hth) as I. rewrite <- Hs in I. cbn [app] in I.
  destruct (i_close_faulty bsz sh (i_faults env s)) as (s2 & [[E2 _] | (e2 & j & E2 & Hj)]).
  - apply I.
  - by apply (iinv_seek _ _ 6 I); lia.
  - rewrite E2 in Hcl. discriminate Hcl.
  - rewrite E2 in Hcl. inversion Hcl; subst s2. unfold i_faults in Hj. cbn [is_file is_map] in Hj.
    change (quiet _) with (quiet (is_file s)) in Hj. rewrite quiet_id in Hj by apply I.
    destruct (closed_image bsz sh _ s I) as (s3 & tl & E3 & _ & Hf3 & _).
    destruct (C33_crash_in_first_close_partial bsz rsz c f0 f0' s0 h s sh s3 j f) as [Hr | [Hr | Hr]]; try done.
    + rewrite Hd, Hj, Hf3. unfold crash_image, written_by. by rewrite close_if_log.
    + by left.
    + right. destruct Hr as (f' & t & Ho' & Hi & _). exists f', t. split; [done|by left].
    + right. destruct Hr as (f' & t & Ho' & Hi & _). exists f', t. split; [done|by right].
Qed.
Print Assumptions C119_failed_first_close_partial.

(** A new index in which 5 and 7 are put.  The header is 6 bytes.  Close: succeeds; fails
    at once; fails after one pair (the next Open then refuses the file); the final Close
    of the file fails (the index is found). *)
Definition case_order : index_order := Shuffle _ (fun l : list (Z * Z) => l) (fun l => reflexivity l).
Definition case_index : istore :=
  match i_open 16 16 true (open_file KOs []) with
  | (_, Ret s) => i_calls [IvPut 5 50; IvPut 7 70] s
  | (f, _) => IStore ∅ f true
  end.
Definition case_close (env : list fault) : bool * option (list (option Z)) :=
  let '(s, o) := i_close 16 case_order (i_faults env case_index) in
  (match o with Ret _ => true | _ => false end,
   match i_open 16 16 true (open_file KOs (f_data (is_file s))) with
   | (_, Ret t) => Some [i_get t 5; i_get t 7]
   | _ => None
   end).

Example C119_case :
  isession 16 16 true [IvPut 5 50; IvPut 7 70] case_index /\
  case_close [FOk; FOk; FOk; FOk] = (true, Some [Some 50; Some 70]) /\
  case_close [FErr 0] = (false, None) /\
  case_close [FOk; FErr 16] = (false, None) /\
  case_close [FErr 2] = (false, Some [None; None]) /\
  case_close [FOk; FOk; FOk; FErr 0] = (false, Some [Some 50; Some 70]).
Proof.
  split.
  - change case_index with (i_call (IvPut 7 70) (i_call (IvPut 5 50)
      (match i_open 16 16 true (open_file KOs []) with (_, Ret s) => s | (f, _) => IStore ∅ f true end))).
    apply (isession_call _ _ _ [IvPut 5 50]); [|done]. apply (isession_call _ _ _ []); [|done].
    eapply (isession_new _ _ _ (open_file KOs [])); [split; [done|split; [done|by left]]|done|].
    vm_compute. reflexivity.
  - vm_compute. done.
Qed.
