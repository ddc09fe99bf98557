(** Property C98, delta storage: more operations than the counter of the file can count. *)
From Verif Require Import Base GoIO Lock Delta SpecFile SpecLock SpecDelta DeltaSession GoIOFacts
  LockFacts DeltaRecoverFacts DeltaStoreFacts DeltaHistFacts DeltaWideFacts PropDeltaStore.

(** * C98 fails: whoever adds and flushes 2^32 times finds nothing after Close and Open,
    although no call ever failed. *)
Theorem C98_delta_many_refuted :
  exists bsz h s, session bsz h s /\ last_add h 1 10 = Some 43 /\ d_get s 1 10 = Some 43 /\
  forall sh : new_order, exists s', d_close bsz sh s = (s', Ret tt) /\
  forall f, usable f -> f_data f = f_data (ds_file s') ->
  exists f' t, d_open f = (f', Ret t) /\ d_total_count t = 0 /\ forall user item, d_get t user item = None.
Proof.
  assert (exists N, Z.of_nat N = 2 ^ 32) as [N HN] by (exists (Z.to_nat (2 ^ 32)); apply Z2Nat.id; lia).
  destruct (opened_empty_inv (open_file KOs [])) as (f0 & s0 & Ho0 & I0 & Hn0).
  { split; [done|]. split; [done|]. by left. } { done. }
  set (sh0 := Shuffle _ (fun l => l) (fun l => reflexivity l) : new_order).
  destruct (same_again 4096 sh0 43 1 10 N ltac:(done) ltac:(done) ltac:(done) [] [] s0 I0 Hn0)
    as (s & E & Hc & I & Hn & Hl). cbn [app length Nat.add] in I, Hl.
  assert (Hlast : forall n, last_add (concat (replicate (S n) [EvAdd 43 1 10; EvFlush])) 1 10 = Some 43).
  { induction n as [|n IH]; [done|]. cbn [replicate concat app last_add] in *. by destruct (last_add (concat _) 1 10). }
  assert (Hlast' : last_add (concat (replicate N [EvAdd 43 1 10; EvFlush])) 1 10 = Some 43).
  { destruct N as [|n]; [done|]. apply Hlast. }
  assert (Hs : session 4096 (concat (replicate N [EvAdd 43 1 10; EvFlush])) s).
  { clear -Ho0 Hc. rename N into n.
    assert (Hg : forall n h s0 s, session 4096 h s0 ->
      d_calls 4096 (concat (replicate n [DAdd 43 1 10; DFlush sh0])) s0 = (s, Ret tt) ->
      session 4096 (h ++ concat (replicate n [EvAdd 43 1 10; EvFlush])) s).
    { clear. induction n as [|n IH]; intros h s0 s Hs; cbn [replicate concat app d_calls].
      - intros [= <-]. by rewrite app_nil_r.
      - unfold iobind. cbn [d_call].
        destruct (d_flush 4096 sh0 (d_add 43 1 10 s0)) as [s2 [[]| | |]] eqn:Ef; [|done..]. intros Hc.
        pose proof (session_call 4096 h s0 (DAdd 43 1 10) _ Hs ltac:(done) eq_refl) as Hs1.
        pose proof (session_call 4096 _ _ (DFlush sh0) _ Hs1 I Ef) as Hs2.
        pose proof (IH _ _ _ Hs2 Hc) as Hs3. cbn [event_of] in Hs3. by rewrite <- !app_assoc in Hs3. }
    apply (Hg n [] s0 s); [|done]. eapply session_new; [| |exact Ho0]; [|done].
    split; [done|]. split; [done|]. by left. }
  eexists 4096%nat, _, s. split; [exact Hs|]. split; [exact Hlast'|]. split.
  { rewrite (inv_get _ _ _ 1 10 I).
    assert (Hu : unflushed (concat (replicate N [EvAdd 43 1 10; EvFlush])) = []).
    { destruct N as [|n]; [done|]. rewrite replicate_S_end, concat_app. cbn [concat app].
      change [EvAdd 43 1 10; EvFlush] with ([EvAdd 43 1 10] ++ [EvFlush]). rewrite app_assoc. apply unflushed_flush. }
    pose proof (last_add_split (concat (replicate N [EvAdd 43 1 10; EvFlush])) 1 10) as Hsp.
    rewrite Hu in *. cbn [mentioned existsb last_add] in *. by rewrite <- Hsp. }
  intros sh. pose proof (dinv_wide _ _ _ I) as W.
  destruct (winv_close 4096 sh E E s W) as (s' & Hcl & Hd & _). exists s'. split; [done|].
  assert (Hv : visit sh (ds_new s) = []).
  { apply length_zero_iff_nil. rewrite visit_length, Hn. done. }
  rewrite Hv, app_nil_r, Hl in Hd. intros f Hu Hfd.
  destruct (winv_open f N E Hu) as (f' & t & Ho & Hnew & Hca & Htot & _).
  { apply I. } { rewrite Hl. done. } { by rewrite Hfd. }
  exists f', t. split; [done|]. rewrite HN in Htot. split; [exact Htot|].
  intros u i. unfold d_get. rewrite Hnew, lookup_empty, Hca.
  assert (seen N E = []) as ->; [|by rewrite group_lookup].
  unfold seen. rewrite HN. change (u32 (2 ^ 32)) with 0. done.
Qed.
Print Assumptions C98_delta_many_refuted.

(** * C98, what holds in one opening, for any number of calls: the answers, the counts and
    the records in the file (the count in its header is that number modulo 2^32). *)
Theorem C98_delta_one_opening_partial :
  forall bsz f cs, usable f -> f_data f = [] -> Forall ev_typed (map event_of cs) ->
  let h := map event_of cs in
  exists f' s0 s ops, d_open f = (f', Ret s0) /\ d_calls bsz cs s0 = (s, Ret tt) /\
    (forall user item, d_get s user item =
       if existsb (mentions user) (unflushed h) then last_add (unflushed h) user item
       else last_add (durable h) user item) /\
    d_user_count s = Z.of_nat (size (users_of h)) /\
    f_data (ds_file s) = delta_image 1 (map op_bytes ops) /\
    (forall user item, last_add (map op_event ops) user item = last_add (durable h) user item) /\
    (unflushed h = [] -> d_total_count s = Z.of_nat (length ops) /\
       d_file_size s = Z.of_nat (length (f_data (ds_file s)))).
Proof.
  intros bsz f cs Hu Hd Ht h.
  destruct (opened_empty_inv f Hu Hd) as (f' & s0 & Ho & I0 & _).
  destruct (calls_inv_any bsz cs [] [] s0 I0 Ht) as (s & E & Hc & I). cbn [app] in I. fold h in I.
  set (ops := map (fun x : entry => (id_op (snd x), fst x, id_item (snd x))) E).
  assert (Hen : E = map op_ent ops).
  { unfold ops. rewrite map_map. rewrite <- (map_id E) at 1. apply map_ext. by intros [u [i o]]. }
  exists f', s0, s, ops. split; [done|]. split; [done|].
  split; [intros u i; by apply (inv_get h E s)|].
  split; [by apply (inv_user_count h E)|].
  split; [rewrite op_ent_rec, <- Hen; apply I|].
  split; [intros u i; rewrite <- latest_ops, <- Hen; apply I|].
  intros Hun.
  assert (Hn : ds_new s = ∅).
  { apply map_empty. intros u. pose proof (di_nusers _ _ _ I u) as Hx. rewrite Hun in Hx. cbn in Hx.
    destruct (ds_new s !! u); [|done]. by destruct Hx as [Hx _]; discriminate Hx; eauto. }
  pose proof (di_total _ _ _ I) as Htot. rewrite Hn in Htot. change (length (pend ∅)) with 0%nat in Htot.
  unfold d_total_count, d_file_size. split; [unfold ops; rewrite map_length; lia|].
  rewrite (di_data _ _ _ I), img_length, Htot. unfold delta_entry_size, delta_header_size.
  change delta_prefix_len with 8. lia.
Qed.
Print Assumptions C98_delta_one_opening_partial.

(** * C98, what Close and Open do to any number of records, after any life of the storage:
    Open succeeds and knows exactly the first (count mod 2^32) records of the file. *)
Theorem C98_delta_reopen_partial :
  forall bsz h s, session bsz h s ->
  forall sh : new_order,
  exists s' ops, d_close bsz sh s = (s', Ret tt) /\ f_closed (ds_file s') = true /\
    Forall op_typed ops /\ d_total_count s <= Z.of_nat (length ops) /\
    f_data (ds_file s') = delta_magic ++ [1; 0] ++ be32 (d_total_count s) ++ concat (map op_bytes ops) /\
  forall f, usable f -> f_data f = f_data (ds_file s') ->
  exists f' t, d_open f = (f', Ret t) /\ d_total_count t = d_total_count s mod 2 ^ 32 /\
    forall user item, d_get t user item =
      last_add (map op_event (take (Z.to_nat (d_total_count s mod 2 ^ 32)) ops)) user item.
Proof.
  intros bsz h s Hs sh. destruct (session_wide bsz h s Hs) as (E0 & V0 & W).
  destruct (winv_close bsz sh E0 V0 s W) as (s' & Hc & Hd & Hcl).
  destruct (winv_flush bsz sh E0 V0 s W) as (s1 & _ & W1 & _).
  set (E := E0 ++ visit sh (ds_new s)) in *. set (V := V0 ++ visit sh (ds_new s)) in *.
  set (ops := map (fun x : entry => (id_op (snd x), fst x, id_item (snd x))) E).
  assert (Hen : E = map op_ent ops).
  { unfold ops. rewrite map_map. rewrite <- (map_id E) at 1. apply map_ext. by intros [u [i o]]. }
  assert (Htot : d_total_count s = Z.of_nat (length V)).
  { destruct (wi_mem _ _ _ W) as (h0 & f0 & I). pose proof (di_total _ _ _ I) as Ht.
    cbn [with_file ds_total ds_new] in Ht. unfold d_total_count, V. by rewrite app_length, visit_length. }
  exists s', ops. split; [done|]. split; [done|]. split.
  { unfold ops. apply Forall_map. eapply Forall_impl; [apply W1|]. intros x (? & ? & ?). done. }
  split; [unfold ops; rewrite Htot, map_length; pose proof (wi_len _ _ _ W1); lia|].
  split.
  { rewrite Hd. unfold himg. rewrite Htot. do 3 f_equal. unfold recs. rewrite op_ent_rec, <- Hen. done. }
  intros f Hu Hfd.
  destruct (winv_open f (length V) E Hu) as (f' & t & Ho & Hnew & Hca & Htt & _).
  { apply W1. } { apply W1. } { by rewrite Hfd. }
  exists f', t. split; [done|]. unfold d_total_count at 1. rewrite Htt, Htot. split; [done|].
  intros u i. unfold d_get. rewrite Hnew, lookup_empty, Hca.
  fold (u32 (Z.of_nat (length V))). rewrite <- latest_ops. unfold latest.
  assert (map op_ent (take (Z.to_nat (u32 (Z.of_nat (length V)))) ops) = seen (length V) E) as ->.
  { unfold seen. rewrite <- firstn_map, <- Hen. done. }
  rewrite group_lookup. by destruct (of_user u (seen (length V) E)).
Qed.
Print Assumptions C98_delta_reopen_partial.

Example C98_delta_case :
  let sh := Shuffle _ (fun l => l) (fun l => reflexivity l) : new_order in
  exists s s' t, session 16 [EvAdd 43 1 10; EvFlush; EvAdd 45 1 10; EvAdd 43 2 20] s /\
    d_get s 1 10 = Some 45 /\ d_close 16 sh s = (s', Ret tt) /\
    snd (d_open (open_file KOs (f_data (ds_file s')))) = Ret t /\
    d_total_count t = 3 /\ d_get t 1 10 = Some 45 /\ d_get t 2 20 = Some 43.
Proof.
  cbn zeta.
  edestruct (delta_sessions_exist 16 (open_file KOs [])
    [DAdd 43 1 10; DFlush (Shuffle _ (fun l => l) (fun l => reflexivity l)); DAdd 45 1 10; DAdd 43 2 20])
    as (f' & s0 & s & Ho & Hc & Hs).
  - split; [done|]. split; [done|]. by left.
  - done.
  - by repeat (apply Forall_cons; split; [done|]).
  - cbn. lia.
  - vm_compute in Ho. injection Ho as <- <-. vm_compute in Hc. injection Hc as <-.
    eexists _, _, _. split; [exact Hs|]. split; [by vm_compute|]. split; [vm_compute; reflexivity|].
    split; [vm_compute; reflexivity|]. by vm_compute.
Qed.
