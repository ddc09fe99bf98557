(** Property C107: of several calls of Open at the same time one gets the file. *)
From Verif Require Import Base GoIO SpecFile SpecLock SpecDelta SpecIndex Delta DeltaSession DeltaShare DeltaRace
  Index IndexSession IndexRace GoIOFacts DeltaStoreFacts DeltaHistFacts DeltaCrashFacts DeltaShareFacts DeltaRaceFacts
  IndexFacts IndexRaceFacts PropIndex.

(** * C107
    Full claim: when several goroutines or processes call Open on one file at the same
    time, at most one of them gets it.
    False: Open looks at the lock flag, and sets it, in separate steps. *)

(** The two steps are Open. *)
Theorem C107_two_steps :
  (forall f, d_open f = (do x <- d_open_check; d_open_lock x) f) /\
  (forall bsz rsz c f, i_open bsz rsz c f = (do x <- i_open_check bsz rsz c; i_open_lock rsz c x) f).
Proof. split; [apply open_parts|apply iopen_parts]. Qed.
Print Assumptions C107_two_steps.

(** A delta file, whatever operations it holds: both calls succeed.  Then, with the one
    flushing an operation and the other closing upon another, every call succeeds and
    the operation of the second is not found when the file is opened again. *)
Theorem C107_delta_refuted :
  forall bsz sh sh' ops opa ua ia opb ub ib f g,
  Forall op_typed ops -> Z.of_nat (length ops) + 3 < 2 ^ 32 ->
  ev_typed (EvAdd opa ua ia) -> ev_typed (EvAdd opb ub ib) ->
  usable f -> f_data f = delta_image 0 (map op_bytes ops) ->
  usable g -> f_data g = delta_image 0 (map op_bytes ops) ->
  exists d s t s1 t1, race (delta_image 0 (map op_bytes ops)) d [Opened s; Opened t] /\
    d_flush bsz sh (d_add opa ua ia (sees d s)) = (s1, Ret tt) /\
    d_close bsz sh' (d_add opb ub ib (sees (f_data (ds_file s1)) t)) = (t1, Ret tt) /\
    forall k, usable k -> f_data k = f_data (ds_file t1) -> exists k' r, d_open k = (k', Ret r) /\
      forall u i, d_get r u i = last_add (map op_event ops ++ [EvAdd opa ua ia]) u i.
Proof.
  intros bsz sh sh' ops opa ua ia opb ub ib f g Ht Hl (Ha1 & Ha2 & Ha3) (Hb1 & Hb2 & Hb3) Hf Hfd Hg Hgd.
  set (E := map op_ent ops).
  assert (HE : Forall ent_typed E) by (by apply op_ent_typed).
  assert (HlE : length E = length ops) by apply map_length.
  assert (Hd0 : delta_image 0 (map op_bytes ops) = img 0 E) by (by rewrite op_ent_rec).
  rewrite Hd0 in *.
  destruct (both_open E f g) as (s & t & R & Is & It); try done; [lia|].
  assert (Hu : unflushed (open_hist E) = []) by apply unflushed_flush.
  assert (Hlen : Z.of_nat (length (open_hist E)) + 1 < 2 ^ 32).
  { unfold open_hist. rewrite app_length, !map_length, HlE. cbn. lia. }
  assert (Hh : map op_event (map ent_op E) = map op_event ops).
  { unfold E. rewrite map_map. rewrite map_map. apply map_ext. by intros [[? ?] ?]. }
  destruct (second_is_lost bsz _ E s _ t sh sh' opa ua ia opb ub ib f Is It Hu Hu) as (s1 & t1 & H1 & H2 & _);
    try done; [lia|].
  exists (img 1 E), s, t, s1, t1. split; [done|]. rewrite (di_data _ _ _ It) in H1. split; [done|]. split; [done|].
  intros k Hk Hkd.
  destruct (second_is_lost bsz _ E s _ t sh sh' opa ua ia opb ub ib k Is It Hu Hu) as (s2 & t2 & H3 & H4 & H5);
    try done; [lia|]. rewrite (di_data _ _ _ It) in H3.
  rewrite H3 in H1. injection H1 as <-. rewrite H4 in H2. injection H2 as <-.
  destruct (H5 Hk Hkd) as (k' & r & Ho & Hr). exists k', r. split; [done|]. intros u i. rewrite Hr.
  unfold open_hist. rewrite Hh, !last_add_app. done.
Qed.
Print Assumptions C107_delta_refuted.

(** An index file, whatever pairs it holds: both calls succeed.  The calls made on the
    index that is closed first are lost, all of them. *)
Theorem C107_index_refuted :
  forall bsz rsz c l tail ha hb sha shb f g, (0 < rsz)%nat ->
  Forall (fun x => is_u64 (fst x) /\ is_u64 (snd x)) l -> Forall iv_typed ha -> Forall iv_typed hb ->
  Z.of_nat (length l + length hb) < 2 ^ 32 ->
  usable f -> f_data f = index_image 0 l ++ tail ->
  usable g -> f_data g = index_image 0 l ++ tail ->
  exists d s t s1 t1, irace bsz rsz c (index_image 0 l ++ tail) d [IOpened s; IOpened t] /\
    i_close bsz sha (i_calls ha (isees d s)) = (s1, Ret tt) /\
    i_close bsz shb (i_calls hb (isees (f_data (is_file s1)) t)) = (t1, Ret tt) /\
    forall k, usable k -> f_data k = f_data (is_file t1) -> exists k' r, i_open bsz rsz c k = (k', Ret r) /\
      forall id, i_get r id = index_value (map (fun x => IvPut (fst x) (snd x)) l ++ hb) id None.
Proof.
  intros bsz rsz c l tail ha hb sha shb f g Hrsz Hl Ha Hb Hlen Hf Hfd Hg Hgd.
  change (index_image 0 l ++ tail) with (iat 0 l tail) in *.
  destruct (iboth_open bsz rsz c l tail f g) as (s & t & R); try done; [lia|].
  destruct (irace_stage _ _ _ _ _ _ _ Hrsz Hl ltac:(lia) R) as (b & _ & HS & _).
  apply Forall_cons in HS as [(_ & Hms & Hcs & Hhs & Hds & _) HS]. apply Forall_cons in HS as [(_ & Hmt & Hct & Hht & Hdt & _) _].
  exists (iat 1 l tail), s, t.
  destruct (close_over bsz sha (i_calls ha (isees (iat 1 l tail) s)) 1 1 (be_enc 4 (Z.of_nat (length l))) (ipairs l ++ tail))
    as (s1 & tail1 & C1 & D1).
  { by rewrite i_calls_file. } { apply CodecFacts.be_enc_length. }
  { rewrite i_calls_file. cbn [isees is_file seen f_data]. by rewrite iat_shape. }
  set (t0 := i_calls hb (isees (f_data (is_file s1)) t)).
  assert (Hd0 : f_data (is_file t0) = f_data (is_file s1)) by (unfold t0; by rewrite i_calls_file).
  destruct (close_over bsz shb t0 1 0 (be_enc 4 (Z.of_nat (size (is_map (i_calls ha (isees (iat 1 l tail) s))))))
    (ipairs (shuf sha (map_to_list (is_map (i_calls ha (isees (iat 1 l tail) s))))) ++ tail1)) as (t1 & tail2 & C2 & D2).
  { unfold t0. by rewrite i_calls_file. } { apply CodecFacts.be_enc_length. }
  { rewrite Hd0, D1, image_shape, saved_length. done. }
  exists s1, t1. split; [exact R|]. split; [exact C1|]. split; [exact C2|].
  intros k Hk Hkd. rewrite D2 in Hkd.
  assert (Hty : map_typed (is_map t0)).
  { apply i_calls_typed; [done|]. cbn [isees is_map]. rewrite Hmt. apply imap_typed; [done|]. intros a v. by rewrite lookup_empty. }
  assert (Hsz : (size (is_map t0) <= length l + length hb)%nat).
  { unfold t0. rewrite i_calls_size. cbn [isees is_map]. rewrite Hmt. pose proof (imap_size l ∅). rewrite map_size_empty in *. lia. }
  destruct (open_image_inv bsz rsz c k _ tail2 Hrsz Hk (saved_typed shb _ Hty)) as (k' & r & Ho & _ & _ & Hm & _); [|done|].
  { rewrite saved_length. lia. }
  exists k', r. split; [done|]. intros id. unfold i_get. rewrite Hm, imap_saved.
  change (is_map t0 !! id) with (i_get t0 id). unfold t0. rewrite C31_index_is_a_map, index_value_app.
  f_equal. unfold i_get. cbn [isees is_map]. by rewrite Hmt, imap_lookup, lookup_empty.
Qed.
Print Assumptions C107_index_refuted.

(** What is true, of any number of calls and any order of their steps: a call is
    refused exactly if another one has set the lock before it looked, and a refused call
    leaves the content alone; having found the flag clear, a call succeeds whatever the
    others do; and all that succeed know the operations of the file. *)
Theorem C107_delta_partial :
  forall ops d0 d os, Forall op_typed ops -> Z.of_nat (length ops) < 2 ^ 32 ->
  d0 = delta_image 0 (map op_bytes ops) \/ (d0 = [] /\ ops = []) ->
  race d0 d os ->
  (forall i f, os !! i = Some (Waiting f) ->
    (after_check (d_open_check (seen d f)) = Refused <-> exists j s, os !! j = Some (Opened s)) /\
    (after_check (d_open_check (seen d f)) = Refused -> f_data (fst (d_open_check (seen d f))) = d)) /\
  (forall i f x, os !! i = Some (Checked f x) -> exists s, after_lock (d_open_lock x (seen d f)) = Opened s) /\
  (forall i s, os !! i = Some (Opened s) -> forall u it, d_get s u it = last_add (map op_event ops) u it).
Proof.
  intros ops d0 d os Ht Hl H0 R. set (E := map op_ent ops).
  assert (HE : Forall ent_typed E) by (by apply op_ent_typed).
  assert (HlE : length E = length ops) by apply map_length.
  assert (Hh : map op_event (map ent_op E) = map op_event ops).
  { unfold E. rewrite map_map. rewrite map_map. apply map_ext. by intros [[? ?] ?]. }
  assert (Hno : forall os', existsb is_open os' = false -> ~ exists j s, os' !! j = Some (Opened s)).
  { intros os' Hx (j & s & Hj). apply not_true_iff_false in Hx. apply Hx. apply existsb_exists. exists (Opened s).
    split; [|done]. by eapply elem_of_list_In, elem_of_list_lookup_2. }
  destruct (race_stage E d0 d os HE) as [(-> & HE0 & Hw) | (b & -> & HS & Hb)]; [lia| |done| |].
  { destruct H0 as [-> | [-> ->]]; [left|by right]. by rewrite op_ent_rec. }
  - split; [|split].
    + intros i f Hi. pose proof (Forall_lookup_1 _ _ _ _ Hw Hi) as (f1 & [= <-] & Hhf).
      destruct (check_empty (seen [] f)) as (log & Hc); [done|done|]. rewrite Hc. cbn [after_check]. split; [|done].
      split; [done|]. intros (j & s & Hj). by pose proof (Forall_lookup_1 _ _ _ _ Hw Hj) as (f1 & [=] & _).
    + intros i f x Hi. by pose proof (Forall_lookup_1 _ _ _ _ Hw Hi) as (f1 & [=] & _).
    + intros i s Hi. by pose proof (Forall_lookup_1 _ _ _ _ Hw Hi) as (f1 & [=] & _).
  - split; [|split].
    + intros i f Hi. pose proof (Forall_lookup_1 _ _ _ _ HS Hi) as Hhf. cbn in Hhf.
      destruct Hb as [[-> Hb] | [-> Hb]].
      * destruct (check_image (seen (img 0 E) f) E) as (p & Hp & Hc); try done; [lia|]. rewrite Hc.
        cbn [after_check]. split; [|done]. split; [done|]. intros Hx. by apply Hno in Hx.
      * destruct (check_locked (seen (img 1 E) f) E) as (p & e & Hc); try done. rewrite Hc. cbn [after_check].
        split; [|done]. split; [|done]. intros _. apply existsb_exists in Hb as (o & Ho & Hoo). destruct o as [| |s|]; try done.
        apply elem_of_list_In, elem_of_list_lookup in Ho as [j Hj]. eauto.
    + intros i f x Hi. pose proof (Forall_lookup_1 _ _ _ _ HS Hi) as (Hhf & -> & Hp).
      destruct (lock_image (group E, Z.of_nat (length E)) b (seen (img b E) f) E) as (log & Hc); try done.
      rewrite Hc. cbn [after_lock]. eauto.
    + intros i s Hi u it. pose proof (Forall_lookup_1 _ _ _ _ HS Hi) as (_ & I).
      rewrite (inv_durable_get _ _ _ u it I) by apply unflushed_flush. unfold open_hist. rewrite Hh, last_add_app. done.
Qed.
Print Assumptions C107_delta_partial.

Theorem C107_index_partial :
  forall bsz rsz c l tail d os, (0 < rsz)%nat -> Forall (fun x => is_u64 (fst x) /\ is_u64 (snd x)) l ->
  Z.of_nat (length l) < 2 ^ 32 ->
  irace bsz rsz c (index_image 0 l ++ tail) d os ->
  (forall i f, os !! i = Some (IWaiting f) ->
    (iafter_check (i_open_check bsz rsz c (seen d f)) = IRefused <-> exists j s, os !! j = Some (IOpened s)) /\
    (iafter_check (i_open_check bsz rsz c (seen d f)) = IRefused -> f_data (fst (i_open_check bsz rsz c (seen d f))) = d)) /\
  (forall i f x, os !! i = Some (IChecked f x) -> exists s, iafter_lock (i_open_lock rsz c x (seen d f)) = IOpened s) /\
  (forall i s, os !! i = Some (IOpened s) ->
    forall id, i_get s id = index_value (map (fun x => IvPut (fst x) (snd x)) l) id None).
Proof.
  intros bsz rsz c l tail d os Hrsz Hl Hlen R. change (index_image 0 l ++ tail) with (iat 0 l tail) in R.
  assert (Hno : forall os', existsb iis_open os' = false -> ~ exists j s, os' !! j = Some (IOpened s)).
  { intros os' Hx (j & s & Hj). apply not_true_iff_false in Hx. apply Hx. apply existsb_exists. exists (IOpened s).
    split; [|done]. by eapply elem_of_list_In, elem_of_list_lookup_2. }
  destruct (irace_stage _ _ _ _ _ _ _ Hrsz Hl Hlen R) as (b & -> & HS & Hb).
  split; [|split].
  - intros i f Hi. pose proof (Forall_lookup_1 _ _ _ _ HS Hi) as Hhf. cbn in Hhf.
    destruct Hb as [[-> Hb] | [-> Hb]].
    + destruct (icheck_free bsz rsz c (seen (iat 0 l tail) f) l tail) as (p & x & Hc & _); try done. rewrite Hc.
      cbn [iafter_check]. split; [|done]. split; [done|]. intros Hx. by apply Hno in Hx.
    + destruct (icheck_locked bsz rsz c (seen (iat 1 l tail) f) l tail) as (p & e & Hc & Hd); try done. rewrite Hc. cbn [iafter_check].
      split; [|done]. split; [|done]. intros _. apply existsb_exists in Hb as (o & Ho & Hoo). destruct o as [| |s|]; try done.
      apply elem_of_list_In, elem_of_list_lookup in Ho as [j Hj]. eauto.
  - intros i f x Hi. pose proof (Forall_lookup_1 _ _ _ _ HS Hi) as Hr. cbn in Hr.
    destruct (ilock_ready rsz c x b f l tail) as (f' & Hc & _); try done. rewrite Hc. cbn [iafter_lock]. eauto.
  - intros i s Hi id. pose proof (Forall_lookup_1 _ _ _ _ HS Hi) as (_ & Hm & _).
    unfold i_get. by rewrite Hm, imap_lookup, lookup_empty.
Qed.
Print Assumptions C107_index_partial.

(** Three calls on a new file: the second looks before the first locks, the third after
    it. *)
Example C107_case : exists d s t, race [] d [Opened s; Opened t; Refused].
Proof.
  set (f := open_file KOs []).
  assert (Hf : usable f) by (by repeat split; left).
  assert (R0 : race [] [] [Waiting f; Waiting f; Waiting f]).
  { apply (race_start [] [f; f; f]). by repeat (apply Forall_cons; split; [split; [exact Hf|reflexivity]|]). }
  pose proof (race_check _ _ _ 0%nat f R0 eq_refl) as R1.
  pose proof (race_check _ _ _ 1%nat f R1 eq_refl) as R2.
  vm_compute in R2.
  pose proof (race_lock _ _ _ 0%nat _ _ R2 eq_refl) as R3. vm_compute in R3.
  pose proof (race_check _ _ _ 2%nat _ R3 eq_refl) as R4. vm_compute in R4.
  pose proof (race_lock _ _ _ 1%nat _ _ R4 eq_refl) as R5. vm_compute in R5.
  eexists _, _, _. exact R5.
Qed.

Example C107_index_case : exists d s t, irace 16 16 true (index_image 0 [(5, 6)] ++ []) d [IOpened s; IOpened t; IRefused] /\
  i_get s 5 = Some 6 /\ i_get t 5 = Some 6.
Proof.
  set (f := open_file KOs (index_image 0 [(5, 6)] ++ [])).
  assert (Hf : usable f) by (by repeat split; left).
  assert (R0 : irace 16 16 true (index_image 0 [(5, 6)] ++ []) (index_image 0 [(5, 6)] ++ []) [IWaiting f; IWaiting f; IWaiting f]).
  { apply (irace_start _ _ _ _ [f; f; f]). by repeat (apply Forall_cons; split; [split; [exact Hf|reflexivity]|]). }
  pose proof (irace_check _ _ _ _ _ _ 0%nat f R0 eq_refl) as R1. vm_compute in R1.
  pose proof (irace_check _ _ _ _ _ _ 1%nat _ R1 eq_refl) as R2. vm_compute in R2.
  pose proof (irace_lock _ _ _ _ _ _ 0%nat _ _ R2 eq_refl) as R3. vm_compute in R3.
  pose proof (irace_check _ _ _ _ _ _ 2%nat _ R3 eq_refl) as R4. vm_compute in R4.
  pose proof (irace_lock _ _ _ _ _ _ 1%nat _ _ R4 eq_refl) as R5. vm_compute in R5.
  eexists _, _, _. split; [exact R5|]. by vm_compute.
Qed.
