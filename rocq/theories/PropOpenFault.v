(** Property C122: opening a delta or index file when calls on the file fail
    (internal/infra/delta/storagefactory.go, internal/infra/index/storage.go). *)
From Verif Require Import Base GoIO Lock Delta Index SpecFile SpecLock SpecDelta SpecIndex DeltaSession IndexSession GoIOFacts
  CodecFacts LockFacts DeltaFacts DeltaStoreFacts DeltaHistFacts DeltaCrashFacts IndexFacts PropDeltaFault FaultyFacts
  FlakyReadFacts IndexFaultFacts DeltaHonestFacts OpenFaultFacts.

(** A file that is open, whose reads and writes may fail as [f_env] says. *)
Definition opened_file (f : file) : Prop :=
  f_closed f = false /\ (f_kind f = KOs \/ (f_pos f <= length (f_data f))%nat).

(** * C122, the delta file

    An unlocked file that holds the operations [ops] is opened, with Open or with
    OpenMaybeRecover. *)
Definition delta_opening (csz : nat) (f f' : file) (o : outcome dstore) : Prop :=
  d_open f = (f', o) \/ d_open_maybe_recover csz f = (f', o).

Lemma opened_alike f g f' t : opened_file f -> fkept g = fkept f -> f_data f <> [] -> d_open g = (f', Ret t) ->
  exists q, usable q /\ f_data q = f_data f /\ d_open q = (quiet f', Ret (failing [] t)).
Proof.
  intros [Hc _] Hk Hne Ho. destruct (fkept_fields _ _ Hk) as (Hd & _ & Hc' & _).
  destruct (d_open_flaky g) as (f2 & o & E & _ & H); [congruence|congruence|].
  rewrite Ho in E. inversion E; subst f2 o. destruct H as [(t' & Et & E') | (e & [=] & _)]. inversion Et; subst t'.
  (* the position does not matter *)
  exists (fset_pos 0 (quiet g)). split; [split; [cbn; congruence|split; [done|right; cbn; lia]]|]. split; [exact Hd|].
  change (failing [] t) with (quiet_store t). rewrite <- E'. unfold d_open, iobind. rewrite !fseek_end_any by (cbn; congruence). done.
Qed.

(** Success: every operation is there. *)
Theorem C122_delta_success :
  forall bsz csz f f' t ops, opened_file f -> Forall op_typed ops -> Z.of_nat (length ops) < 2 ^ 32 ->
  f_data f = delta_image 0 (map op_bytes ops) -> delta_opening csz f f' (Ret t) ->
  session bsz (map op_event ops ++ [EvFlush]) (failing [] t) /\
  forall user item, d_get t user item = last_add (map op_event ops) user item.
Proof.
  intros bsz csz f f' t ops Hf Ht Hl Hd Ho.
  assert (Hne : f_data f <> []) by (by rewrite Hd).
  assert (exists q, usable q /\ f_data q = f_data f /\ d_open q = (quiet f', Ret (failing [] t))) as (q & Hq & Hdq & Eq).
  { destruct Ho as [Ho | Ho]; [by apply (opened_alike f f)|].
    destruct Hf as [Hc Hp]. destruct (open_maybe_flaky csz f Hc Hp) as (f2 & o & E & H); [by rewrite Hd|].
    rewrite Ho in E. inversion E; subst f2 o. destruct H as [(t' & Et & g & Hg & E') | (e & [=] & _)]. inversion Et; subst t'.
    by apply (opened_alike f g). }
  rewrite <- Hdq in Hd.
  assert (Hs : session bsz (map op_event ops ++ [EvFlush]) (failing [] t)) by (by eapply session_image).
  split; [done|]. intros u i.
  destruct (image_inv q _ _ ops Hq Ht Hd Hl Eq) as [I _].
  change (d_get t u i) with (d_get (failing [] t) u i).
  rewrite (inv_durable_get _ _ _ u i I) by apply unflushed_flush. by rewrite last_add_app.
Qed.
Print Assumptions C122_delta_success.

(** It returns: a storage or an error. *)
Theorem C122_delta_returns :
  forall csz f ops, opened_file f -> f_data f = delta_image 0 (map op_bytes ops) ->
  (exists f' o, d_open f = (f', o) /\ ((exists t, o = Ret t) \/ exists e, o = Err e)) /\
  (exists f' o, d_open_maybe_recover csz f = (f', o) /\ ((exists t, o = Ret t) \/ exists e, o = Err e)).
Proof.
  intros csz f ops [Hc Hp] Hd. split.
  - destruct (d_open_flaky f Hc) as (f2 & o & E & _ & H); [by rewrite Hd|]. exists f2, o. split; [done|].
    destruct H as [(t & -> & _) | (e & -> & _)]; eauto.
  - destruct (open_maybe_flaky csz f Hc Hp) as (f2 & o & E & H); [by rewrite Hd|]. exists f2, o. split; [done|].
    destruct H as [(t & -> & _) | (e & -> & _)]; eauto.
Qed.
Print Assumptions C122_delta_returns.

(** Failure: opening the file again, when nothing fails, gives every operation. *)
Theorem C122_delta_failure :
  forall bsz csz f f' e ops g, (0 < csz)%nat -> opened_file f -> Forall op_typed ops -> Z.of_nat (length ops) + 1 < 2 ^ 32 ->
  f_data f = delta_image 0 (map op_bytes ops) -> delta_opening csz f f' (Err e) ->
  usable g -> f_pos g = 0%nat -> f_data g = f_data f' ->
  exists g' t h, d_open_maybe_recover csz g = (g', Ret t) /\ session bsz h t /\
    forall user item, d_get t user item = last_add (map op_event ops) user item.
Proof.
  intros bsz csz f f' e ops g Hcsz [Hc Hp] Ht Hl Hd Ho Hg Hgp Hgd.
  assert (Hleft : f_data f' = f_data f \/ f_data f' = splice 9 [1] (f_data f)).
  { destruct Ho as [Ho | Ho].
    - destruct (d_open_flaky f Hc) as (f2 & o & E & _ & H); [by rewrite Hd|].
      rewrite Ho in E. inversion E; subst f2 o. destruct H as [(t & [=] & _) | (e' & _ & [? | [_ ?]])]; auto.
    - destruct (open_maybe_flaky csz f Hc Hp) as (f2 & o & E & H); [by rewrite Hd|].
      rewrite Ho in E. inversion E; subst f2 o. destruct H as [(t & [=] & _) | (e' & _ & [? | [_ ?]])]; auto. }
  assert (Himg : forall b, delta_image b (map op_bytes ops) = img b (map op_ent ops)).
  { intros b. unfold img. by rewrite op_ent_rec. }
  (* opened without failures *)
  set (q := open_file KOs (delta_image 0 (map op_bytes ops))).
  assert (Hq : usable q) by (split; [done|split; [done|by left]]).
  destruct (d_open_image q (map op_ent ops)) as (p & _ & Eq); [done|by apply op_ent_typed|rewrite map_length; lia|apply Himg|].
  cbn zeta in Eq. set (t0 := DStore _ _ _ _ _) in Eq.
  destruct (image_inv q _ t0 ops Hq Ht eq_refl ltac:(lia) Eq) as [I Hf0].
  destruct Hleft as [Hleft | Hleft].
  - rewrite Hleft, Hd in Hgd.
    destruct (d_open_image g (map op_ent ops)) as (p' & _ & Eg);
      [by destruct Hg as (? & ? & _)|by apply op_ent_typed|rewrite map_length; lia|by rewrite Hgd, Himg|].
    cbn zeta in Eg. set (t1 := DStore _ _ _ _ _) in Eg.
    destruct (image_inv g _ t1 ops Hg Ht Hgd ltac:(lia) Eg) as [I1 _].
    eexists _, t1, (map op_event ops ++ [EvFlush]). split; [eapply (open_unlocked_maybe csz g (map op_ent ops)); [done|done|by rewrite Hgd, Himg|exact Eg]|].
    split; [eapply session_image; [exact Hg|exact Ht|exact Hgd|exact Eg]|]. intros u i.
    rewrite (inv_durable_get _ _ _ u i I1) by apply unflushed_flush. by rewrite last_add_app.
  - destruct (crash_nothing bsz csz _ _ t0 g I) as (g' & t & ops' & Eg & Hs & _ & _ & _ & Hget).
    { rewrite app_length, map_length. cbn [length]. lia. } { done. } { done. } { done. }
    { rewrite Hgd, Hleft, Hd, Himg, !img_enc. cbn [t0 ds_file f_data]. by rewrite img_enc. }
    exists g', t, (map op_event ops' ++ [EvFlush]). split; [done|]. split; [done|]. intros u i. rewrite Hget.
    rewrite durable_flush. by rewrite last_add_app.
Qed.
Print Assumptions C122_delta_failure.

(** * C122, the index file *)

(** An unlocked index file that holds the pairs [l]. *)
Definition index_opening (bsz rsz : nat) (c : bool) (f : file) (l : list (Z * Z)) (tail : list byte)
    (f' : file) (o : outcome istore) : Prop :=
  (0 < rsz)%nat /\ opened_file f /\ Forall (fun x => is_u64 (fst x) /\ is_u64 (snd x)) l /\
  Z.of_nat (length l) < 2 ^ 32 /\ f_data f = index_image 0 l ++ tail /\ i_open bsz rsz c f = (f', o).

Definition puts (l : list (Z * Z)) : list ievent := map (fun x => IvPut (fst x) (snd x)) l.

(** Success: every pair is there and the file is locked. *)
Theorem C122_index_success :
  forall bsz rsz c f l tail f' t, index_opening bsz rsz c f l tail f' (Ret t) ->
  f_data f' = index_image 1 l ++ tail /\ f_closed f' = false /\
  forall id, i_get t id = index_value (puts l) id None.
Proof.
  intros bsz rsz c f l tail f' t (Hr & [Hc _] & Ht & Hn & Hd & Ho).
  destruct (i_open_flaky bsz rsz c f l tail Hr Hc Ht Hn Hd) as (f2 & o & E & H). rewrite Ho in E. inversion E; subst f2 o.
  destruct H as [(Et & Hc' & Hd' & _) | (e & [=] & _)]. inversion Et; subst t. split; [done|]. split; [done|].
  intros id. unfold i_get. cbn [is_map]. rewrite imap_lookup, lookup_empty. done.
Qed.
Print Assumptions C122_index_success.

(** Failure, the claim: opening the file again, when nothing fails, gives every pair. *)
Theorem C122_index_failure_refuted :
  ~ (forall bsz rsz c f l tail f' e g, index_opening bsz rsz c f l tail f' (Err e) ->
     usable g -> f_pos g = 0%nat -> f_data g = f_data f' ->
     exists g' t, i_open bsz rsz c g = (g', Ret t) /\ forall id, i_get t id = index_value (puts l) id None).
Proof.
  intros H. pose (l := [(1, 10); (2, 20)]).
  specialize (H 16%nat 16%nat true (File KOs (index_image 0 l) 0 false [FOk; FOk; FErr 0] []) l []).
  edestruct H as (g' & t & Ho & _).
  - split; [lia|]. split; [split; [done|by left]|]. split; [repeat constructor; done|]. split; [done|].
    split; [by rewrite app_nil_r|]. by vm_compute.
  - instantiate (1 := open_file KOs (index_image 1 l)). split; [done|split; [done|by left]].
  - done.
  - done.
  - by vm_compute in Ho.
Qed.
Print Assumptions C122_index_failure_refuted.

(** The true part: Open always returns, and with an error the file still holds the pairs,
    is closed if it can be, and is as before or locked; as before, it opens with every
    pair; locked, it is refused (for ever: an index has no recovery). *)
Theorem C122_index_failure_partial :
  forall bsz rsz c f l tail f' o, index_opening bsz rsz c f l tail f' o ->
  (exists t, o = Ret t) \/
  (exists e k, o = Err e /\ (c = true -> f_closed f' = true) /\
    f_data f' = index_image k l ++ tail /\
    forall g, usable g -> f_data g = f_data f' ->
      (k = 0 /\ exists g' t, i_open bsz rsz c g = (g', Ret t) /\ forall id, i_get t id = index_value (puts l) id None) \/
      (k = 1 /\ exists g' e', i_open bsz rsz c g = (g', Err e') /\ f_data g' = f_data g)).
Proof.
  intros bsz rsz c f l tail f' o (Hr & [Hc _] & Ht & Hn & Hd & Ho).
  destruct (i_open_flaky bsz rsz c f l tail Hr Hc Ht Hn Hd) as (f2 & o2 & E & H). rewrite Ho in E. inversion E; subst f2 o2.
  destruct H as [(-> & _) | (e & -> & Hcl & Hd')]; [left; eauto|right].
  destruct Hd' as [Hd' | Hd'].
  - exists e, 0. split; [done|]. split; [done|]. split; [congruence|]. intros g Hg Hgd. left. split; [done|].
    destruct (open_image_inv bsz rsz c g l tail) as (g' & t & Eg & _ & _ & Hm & _); [done|done|done|lia|congruence|].
    exists g', t. split; [done|]. intros id. unfold i_get. rewrite Hm, imap_lookup, lookup_empty. done.
  - exists e, 1. split; [done|]. split; [done|]. split; [done|]. intros g Hg Hgd. right. split; [done|].
    rewrite Hd' in Hgd. destruct Hg as (Hgc & Hge & _).
    apply i_open_bad; [done|done|by rewrite Hgd|]. right. right. exists 1. by rewrite Hgd.
Qed.
Print Assumptions C122_index_failure_partial.

(** Opening a delta file with a like and a dislike, and an index file with two pairs, when
    some read or write fails, and then again without failures: the delta file opens; the
    index file opens unless the error came after the lock byte. *)
Definition opening_ops : list (Z * Z * Z) := [(1, 5, 7); (2, 5, 8)].
Definition opening_delta (env : list fault) : bool * option (list (option Z)) :=
  let '(f, o) := d_open_maybe_recover 32 (File KOs (delta_image 0 (map op_bytes opening_ops)) 0 false env []) in
  let again := d_open_maybe_recover 32 (open_file KOs (f_data f)) in
  (match o with Ret _ => true | _ => false end,
   match snd again with Ret t => Some [d_get t 5 7; d_get t 5 8; d_get t 5 9] | _ => None end).
Definition opening_index (env : list fault) : bool * option (list (option Z)) :=
  let '(f, o) := i_open 16 16 true (File KOs (index_image 0 [(1, 10); (2, 20)]) 0 false env []) in
  let again := i_open 16 16 true (open_file KOs (f_data f)) in
  (match o with Ret _ => true | _ => false end,
   match snd again with Ret t => Some [i_get t 1; i_get t 2; i_get t 3] | _ => None end).
Example C122_case :
  opening_delta [FOk; FOk; FOk] = (true, Some [Some 1; Some 2; None]) /\
  opening_delta [FErr 0] = (false, Some [Some 1; Some 2; None]) /\
  opening_delta [FOk; FOk; FErr 0] = (false, Some [Some 1; Some 2; None]) /\
  opening_index [FErr 0] = (false, Some [Some 10; Some 20; None]) /\
  opening_index [FOk; FErr 0] = (false, Some [Some 10; Some 20; None]) /\
  opening_index [FOk; FErr 1] = (false, None) /\
  opening_index [FOk; FOk; FErr 0] = (false, None).
Proof. by vm_compute. Qed.
