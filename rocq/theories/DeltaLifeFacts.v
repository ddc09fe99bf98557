(** The invariant of lives of a delta file. *)
From Verif Require Import Base GoIO Lock Delta SpecFile SpecLock SpecCrash SpecDelta SpecLife DeltaSession DeltaLife
  GoIOFacts CodecFacts LockFacts DeltaFacts DeltaRecoverFacts DeltaStoreFacts DeltaHistFacts DeltaCrashFacts
  DeltaRecCrashFacts.

(** ** Histories *)

Lemma settled_snoc H e n : e <> LDo EvFlush -> settled (H ++ [e]) n <-> settled H n.
Proof.
  intros He. split.
  - intros (m & Hn & Hm & Hk). assert (Hl : (m < length H)%nat).
    { destruct (decide (m < length H)%nat); [done|]. rewrite lookup_app_r in Hm by lia.
      apply list_lookup_singleton_Some in Hm as [_ ?]. done. }
    exists m. split; [done|]. rewrite lookup_app_l in Hm by done. split; [done|].
    intros k Hk'. specialize (Hk k Hk'). rewrite lookup_app_l in Hk by lia. done.
  - intros (m & Hn & Hm & Hk). pose proof (lookup_lt_Some _ _ _ Hm). exists m. split; [done|].
    split; [by apply lookup_app_l_Some|]. intros k Hk'. specialize (Hk k Hk'). by rewrite lookup_app_l by lia.
Qed.

Lemma settled_none H n : (length H <= S n)%nat -> ~ settled H n.
Proof. intros Hl (m & Hn & Hm & _). apply lookup_lt_Some in Hm. lia. Qed.

Lemma lookup_snoc_other {A} (l : list A) x y n : (l ++ [x]) !! n = Some y -> x <> y -> l !! n = Some y.
Proof.
  intros Hn Hx. destruct (decide (n < length l)%nat); [by rewrite lookup_app_l in Hn|].
  rewrite lookup_app_r in Hn by lia. apply list_lookup_singleton_Some in Hn as [_ ?]. done.
Qed.

(** An admissible answer stays one until the next flush. *)
Lemma admissible_snoc H e u i v : e <> LDo EvFlush -> admissible H u i v -> admissible (H ++ [e]) u i v.
Proof.
  intros He. assert (Hx : forall m op', (H ++ [e]) !! m = Some (LDo (EvAdd op' u i)) ->
    settled (H ++ [e]) m -> H !! m = Some (LDo (EvAdd op' u i)) /\ settled H m).
  { intros m op' Hm Hs. apply settled_snoc in Hs; [|done]. split; [|done].
    destruct Hs as (k & Hk & Hk' & _). apply lookup_lt_Some in Hk'. by rewrite lookup_app_l in Hm by lia. }
  destruct v as [op|]; cbn [admissible].
  - intros (n & Hn & Hr). exists n. split; [by apply lookup_app_l_Some|]. intros m op' Hm Hl Hs.
    destruct (Hx m op' Hl Hs). by eapply Hr.
  - intros Hr m op' Hl Hs. destruct (Hx m op' Hl Hs). by eapply Hr.
Qed.

Lemma last_add_some h u i op : last_add h u i = Some op ->
  exists n, h !! n = Some (EvAdd op u i) /\
    forall m op', (n < m)%nat -> h !! m <> Some (EvAdd op' u i).
Proof.
  induction h as [|e h IH]; [done|]. intros Hl.
  assert (last_add h u i = Some op \/ (last_add h u i = None /\ e = EvAdd op u i)) as [Ht | [Ht ->]].
  { destruct e as [o u' i'|]; cbn [last_add] in Hl; [|by left]. destruct (last_add h u i); [by left|].
    right. split; [done|]. destruct (u' =? u) eqn:E1; [|done]. destruct (i' =? i) eqn:E2; [|done].
    apply Z.eqb_eq in E1 as ->. apply Z.eqb_eq in E2 as ->. cbn in Hl. by injection Hl as ->. }
  - destruct (IH Ht) as (n & Hn & Hr). exists (S n). split; [done|]. intros [|m] op' Hm; [lia|].
    apply Hr. lia.
  - exists 0%nat. split; [done|]. intros [|m] op' Hm; [lia|]. cbn. clear -Ht.
    revert m. induction h as [|e h IH]; intros m; [done|]. intros Hm.
    destruct e as [o u' i'|]; cbn [last_add] in Ht.
    + destruct (last_add h u i) eqn:E; [done|]. destruct m as [|m]; cbn in Hm.
      * injection Hm as -> -> ->. by rewrite !Z.eqb_refl in Ht.
      * by eapply IH.
    + destruct m as [|m]; [done|]. by eapply IH.
Qed.

Lemma last_add_none h u i : last_add h u i = None -> forall m op, h !! m <> Some (EvAdd op u i).
Proof.
  induction h as [|e h IH]; intros Ht m op Hm; [done|].
  destruct e as [o u' i'|]; cbn [last_add] in Ht.
  - destruct (last_add h u i) eqn:E; [done|]. destruct m as [|m]; cbn in Hm.
    + injection Hm as -> -> ->. by rewrite !Z.eqb_refl in Ht.
    + by eapply IH.
  - destruct m as [|m]; [done|]. by eapply IH.
Qed.

Lemma mentioned_lookup u h : mentioned u h = true <-> exists n op i, h !! n = Some (EvAdd op u i).
Proof.
  unfold mentioned. rewrite existsb_exists. split.
  - intros (e & He & Hm). apply elem_of_list_In, elem_of_list_lookup in He as [n Hn].
    destruct e as [op v i|]; [|done]. cbn in Hm. apply Z.eqb_eq in Hm as ->. eauto.
  - intros (n & op & i & Hn). exists (EvAdd op u i). split; [|apply Z.eqb_refl].
    apply elem_of_list_In. by eapply elem_of_list_lookup_2.
Qed.

(** ** The invariant *)

(** The pending operations of the storage are the last events; before them is a flush, a
    crash or nothing. *)
Definition ends_settled (H : list levent) : Prop :=
  H = [] \/ exists H', H = H' ++ [LDo EvFlush] \/ H = H' ++ [LCrash].

Definition linv (bsz : nat) (H : list levent) (s : dstore) : Prop :=
  exists h H0, session bsz h s /\ (length h <= length H)%nat /\ H = H0 ++ map LDo (unflushed h) /\
    ends_settled H0 /\ forall u i, admissible H u i (last_add (durable h) u i).

(** Adds in the pending part. *)
Lemma pending_lookup H h n e : (length H <= n)%nat ->
  (H ++ map LDo h) !! n = Some (LDo e) <-> h !! (n - length H)%nat = Some e.
Proof.
  intros Hn. rewrite lookup_app_r by done. rewrite list_lookup_fmap. split.
  - destruct (h !! _); cbn; [|done]. by intros [= ->].
  - by intros ->.
Qed.

(** A crash: what was pending may or may not be there. *)
Lemma admissible_last H0 h u i op :
  last_add h u i = Some op -> admissible (H0 ++ map LDo h) u i (Some op).
Proof.
  intros Hl. destruct (last_add_some _ _ _ _ Hl) as (n & Hn & Hr).
  exists (length H0 + n)%nat. split.
  - apply pending_lookup; [lia|]. by replace (length H0 + n - length H0)%nat with n by lia.
  - intros m op' Hm Hx _. apply pending_lookup in Hx; [|lia]. eapply Hr; [|exact Hx]. lia.
Qed.

(** A flush. *)
Lemma admissible_flush H0 h u i v : ends_settled H0 ->
  admissible (H0 ++ map LDo h) u i v ->
  admissible ((H0 ++ map LDo h) ++ [LDo EvFlush]) u i
    (match last_add h u i with Some o => Some o | None => v end).
Proof.
  intros He Hv. set (H := H0 ++ map LDo h) in *.
  destruct (last_add h u i) as [o|] eqn:Hl.
  - destruct (last_add_some _ _ _ _ Hl) as (n & Hn & Hr).
    exists (length H0 + n)%nat. split.
    + apply lookup_app_l_Some. apply pending_lookup; [lia|].
      by replace (length H0 + n - length H0)%nat with n by lia.
    + intros m op' Hm Hx _. apply lookup_snoc_other in Hx; [|done].
      apply pending_lookup in Hx; [|lia]. eapply Hr; [|exact Hx]. lia.
  - assert (Hx : forall m op', (H ++ [LDo EvFlush]) !! m = Some (LDo (EvAdd op' u i)) ->
      settled (H ++ [LDo EvFlush]) m -> H !! m = Some (LDo (EvAdd op' u i)) /\ settled H m).
    { intros m op' Hm Hs. apply lookup_snoc_other in Hm; [|done]. split; [done|].
      assert (Hlt : (m < length H0)%nat).
      { destruct (decide (m < length H0)%nat); [done|]. exfalso.
        apply pending_lookup in Hm; [|lia]. by eapply last_add_none in Hm. }
      destruct Hs as (k & Hk & Hk' & Hc).
      destruct He as [-> | (H' & [-> | ->])]; [cbn in Hlt; lia| |].
      - rewrite app_length in Hlt. cbn in Hlt.
        exists (k `min` length H')%nat.
        assert (Hm' : m <> length H').
        { intros ->. revert Hm. unfold H. rewrite <- app_assoc, lookup_app_r, Nat.sub_diag by lia. done. }
        split; [lia|]. split.
        + destruct (decide (k < length H)%nat).
          * rewrite lookup_app_l in Hk' by done. destruct (decide (k <= length H')%nat).
            -- by rewrite Nat.min_l by done.
            -- rewrite Nat.min_r by lia. unfold H. by rewrite <- app_assoc, lookup_app_r, Nat.sub_diag by lia.
          * rewrite Nat.min_r.
            -- unfold H. by rewrite <- app_assoc, lookup_app_r, Nat.sub_diag by lia.
            -- unfold H in n. rewrite !app_length in n. lia.
        + intros j Hj Hy. apply (Hc j); [lia|]. by apply lookup_app_l_Some.
      - rewrite app_length in Hlt. cbn in Hlt.
        assert (Hcr : (H ++ [LDo EvFlush]) !! (length H') = Some LCrash).
        { apply lookup_app_l_Some. unfold H. by rewrite <- app_assoc, lookup_app_r, Nat.sub_diag by lia. }
        assert (m <> length H').
        { intros ->. rewrite lookup_app_l in Hcr; [congruence|]. unfold H. rewrite !app_length. cbn. lia. }
        assert (Hkl : (k < length H')%nat).
        { destruct (decide (k < length H')%nat); [done|]. exfalso.
          destruct (decide (k = length H')) as [-> |]; [congruence|]. by apply (Hc (length H')); [lia|]. }
        exists k. split; [done|]. split.
        + rewrite lookup_app_l in Hk'; [exact Hk'|]. unfold H. rewrite !app_length. cbn. lia.
        + intros j Hj Hy. apply (Hc j); [lia|]. by apply lookup_app_l_Some. }
    destruct v as [op|]; cbn [admissible] in *.
    + destruct Hv as (n & Hn & Hr). exists n. split; [by apply lookup_app_l_Some|].
      intros m op' Hm Hy Hs. destruct (Hx m op' Hy Hs). by eapply Hr.
    + intros m op' Hy Hs. destruct (Hx m op' Hy Hs). by eapply Hv.
Qed.

Lemma linv_call bsz H s c s' : linv bsz H s -> ev_typed (event_of c) -> d_call bsz c s = (s', Ret tt) ->
  linv bsz (H ++ [LDo (event_of c)]) s'.
Proof.
  intros (h & H0 & Hs & Hl & HH & He & Ha) Ht Hc.
  assert (Hs' : session bsz (h ++ [event_of c]) s') by (by eapply session_call).
  exists (h ++ [event_of c]). destruct c as [op u i|sh]; cbn [event_of] in *.
  - exists H0. split; [done|]. split; [rewrite !app_length; cbn; lia|].
    rewrite unflushed_add, durable_add, map_app, app_assoc, <- HH. split; [done|]. split; [done|].
    intros u' i'. by apply admissible_snoc.
  - exists (H ++ [LDo EvFlush]). split; [done|]. split; [rewrite !app_length; cbn; lia|].
    rewrite unflushed_flush, durable_flush. split; [by rewrite app_nil_r|]. split; [right; eauto|].
    intros u i. rewrite last_add_app. cbn [last_add]. rewrite last_add_split, HH.
    apply admissible_flush; [done|]. by rewrite <- HH.
Qed.

(** After a crash. *)
Lemma linv_crash bsz H s h ops t : 
  session bsz h s -> (length h <= length H)%nat ->
  (exists H0, H = H0 ++ map LDo (unflushed h)) ->
  (forall u i, admissible H u i (last_add (durable h) u i)) ->
  session bsz (map op_event ops ++ [EvFlush]) t -> (length ops <= length h)%nat ->
  (forall u i, last_add (map op_event ops ++ [EvFlush]) u i = last_add (durable h) u i \/
     last_add (map op_event ops ++ [EvFlush]) u i = last_add h u i) ->
  linv bsz (H ++ [LCrash]) t.
Proof.
  intros Hs Hl [H0 HH] Ha Ht Ho Hv. exists (map op_event ops ++ [EvFlush]), (H ++ [LCrash]).
  split; [done|]. split; [rewrite !app_length, map_length; cbn; lia|].
  rewrite unflushed_flush, ops_durable. split; [by rewrite app_nil_r|]. split; [right; eauto|].
  intros u i. apply admissible_snoc; [done|]. destruct (Hv u i) as [-> | ->]; [apply Ha|].
  rewrite last_add_split. destruct (last_add (unflushed h) u i) eqn:E; [|apply Ha].
  rewrite HH. by apply admissible_last.
Qed.

Lemma life_inv bsz csz H s : (0 < csz)%nat -> life bsz csz H s -> Z.of_nat (length H) < 2 ^ 32 -> linv bsz H s.
Proof.
  intros Hcsz. induction 1 as [f f' s Hu Hd Ho | H s c s' HL IH Ht Hc | H s sh s' f f' t HL IH Hc Hu Hp Hd Ho
    | H s c s' j f f' t HL IH Hc Hu Hp Hd Ho | H s sh s' j f f' t HL IH Hc Hj Hu Hp Hd Ho]; intros Hlen.
  - exists [], []. split; [by eapply session_new|]. split; [done|]. split; [done|]. split; [by left|].
    intros u i m op' Hm. done.
  - rewrite app_length in Hlen. cbn in Hlen. by apply (linv_call bsz H s c); [apply IH; lia| |].
  - rewrite app_length in Hlen. cbn in Hlen.
    destruct IH as (h & H0 & Hs & Hl & HH & He & Ha); [lia|].
    destruct (session_inv bsz h s Hs ltac:(lia)) as [E I].
    destruct (close_inv bsz sh h E s I ltac:(lia)) as (s1 & Hc1 & Hd1 & _). rewrite Hc in Hc1. injection Hc1 as <-.
    destruct (open_unlocked csz f (E ++ visit sh (ds_new s))) as (f1 & t1 & Ho1 & Ho2); try done.
    { apply Forall_app. split; [apply I|by apply (visit_typed h E)]. }
    { pose proof (di_total _ _ _ I). pose proof (di_bound _ _ _ I). rewrite app_length, visit_length. lia. }
    { by rewrite Hd. }
    rewrite Ho in Ho2. injection Ho2 as <- <-.
    exists (h ++ [EvFlush]), (H ++ [LDo EvFlush]). split; [by eapply session_reopen|].
    split; [rewrite !app_length; cbn; lia|]. rewrite unflushed_flush, durable_flush.
    split; [by rewrite app_nil_r|]. split; [right; eauto|].
    intros u i. rewrite last_add_app. cbn [last_add]. rewrite last_add_split, HH.
    apply admissible_flush; [done|]. by rewrite <- HH.
  - rewrite app_length in Hlen. cbn in Hlen.
    destruct IH as (h & H0 & Hs & Hl & HH & He & Ha); [lia|].
    destruct (session_inv bsz h s Hs ltac:(lia)) as [E I].
    destruct (call_image bsz h E s c s' I ltac:(lia) Hc) as (sh & F & HF & Himg).
    destruct c as [op u i|sh'].
    + rewrite (Himg j) in Hd.
      destruct (crash_nothing bsz csz h E s f I ltac:(lia) Hcsz Hu Hp Hd) as (f1 & t1 & ops & Ho1 & Hst & _ & _ & Hlo & Hg).
      rewrite Ho in Ho1. injection Ho1 as <- <-.
      assert (Z.of_nat (length (map op_event ops ++ [EvFlush])) < 2 ^ 32).
      { rewrite app_length, map_length. cbn. lia. }
      destruct (session_inv _ _ _ Hst ltac:(done)) as [E' I'].
      apply (linv_crash bsz H s h ops t); try done; [by eexists|].
      intros u' i'. left. rewrite <- Hg. symmetry. apply (inv_durable_get _ _ _ u' i' I'). apply unflushed_flush.
    + destruct HF as [<- ->]. pose proof (Himg 0%nat) as Hf. rewrite Hf in Hd.
      destruct (crash_flush bsz csz h E s sh j f I ltac:(lia) Hcsz Hu Hp Hd)
        as (f1 & t1 & Ho1 & ops & Hst & _ & _ & Hlo & Hg & _).
      rewrite Ho in Ho1. injection Ho1 as <- <-.
      assert (Z.of_nat (length (map op_event ops ++ [EvFlush])) < 2 ^ 32).
      { rewrite app_length, map_length. cbn. lia. }
      destruct (session_inv _ _ _ Hst ltac:(done)) as [E' I'].
      apply (linv_crash bsz H s h ops t); try done; [by eexists|].
      intros u' i'. rewrite <- (inv_durable_get _ _ _ u' i' I') by apply unflushed_flush. apply Hg.
  - rewrite app_length in Hlen. cbn in Hlen.
    destruct IH as (h & H0 & Hs & Hl & HH & He & Ha); [lia|].
    destruct (session_inv bsz h s Hs ltac:(lia)) as [E I].
    destruct (crash_close bsz csz h E s sh s' j f I ltac:(lia) Hcsz Hc Hj Hu Hp Hd)
      as (f1 & t1 & Ho1 & ops & Hst & _ & _ & Hlo & Hg & _).
    rewrite Ho in Ho1. injection Ho1 as <- <-.
    assert (Z.of_nat (length (map op_event ops ++ [EvFlush])) < 2 ^ 32).
    { rewrite app_length, map_length. cbn. lia. }
    destruct (session_inv _ _ _ Hst ltac:(done)) as [E' I'].
    apply (linv_crash bsz H s h ops t); try done; [by eexists|].
    intros u' i'. rewrite <- (inv_durable_get _ _ _ u' i' I') by apply unflushed_flush. apply Hg.
Qed.

Lemma no_flush_unflushed h : EvFlush ∉ unflushed h.
Proof.
  induction h as [|e h IH] using rev_ind; [by apply not_elem_of_nil|]. destruct e as [op u i|].
  - rewrite unflushed_add, elem_of_app, elem_of_list_singleton. by intros [? | ?].
  - rewrite unflushed_flush. by apply not_elem_of_nil.
Qed.

(** Nothing ends the wait of a pending operation. *)
Lemma pending_waits H0 h m : (length H0 <= m)%nat ->
  (H0 ++ map LDo (unflushed h)) !! m <> Some (LDo EvFlush) /\
  (H0 ++ map LDo (unflushed h)) !! m <> Some LCrash.
Proof.
  intros Hm. split; intros Hx.
  - apply pending_lookup in Hx; [|done]. apply elem_of_list_lookup_2 in Hx. by apply no_flush_unflushed in Hx.
  - rewrite lookup_app_r in Hx by done. rewrite list_lookup_fmap in Hx. by destruct (unflushed h !! _).
Qed.

(** What an open storage answers. *)
Lemma life_get bsz csz H s u i : (0 < csz)%nat -> life bsz csz H s -> Z.of_nat (length H) < 2 ^ 32 ->
  nothing_pending H u -> admissible H u i (d_get s u i).
Proof.
  intros Hcsz HL Hlen Hp. destruct (life_inv _ _ _ _ Hcsz HL Hlen) as (h & H0 & Hs & Hl & HH & He & Ha).
  destruct (session_inv bsz h s Hs ltac:(lia)) as [E I]. rewrite (inv_get h E s u i I).
  destruct (mentioned u (unflushed h)) eqn:Hm; [|apply Ha]. exfalso.
  apply mentioned_lookup in Hm as (n & op & i' & Hn).
  assert (Hn' : H !! (length H0 + n)%nat = Some (LDo (EvAdd op u i'))).
  { rewrite HH. apply pending_lookup; [lia|]. by replace (length H0 + n - length H0)%nat with n by lia. }
  destruct (Hp _ _ _ Hn') as (m & Hmn & Hx). rewrite HH in Hx.
  destruct (pending_waits H0 h m ltac:(lia)). tauto.
Qed.

(** After all the writes of Close the file is what Close leaves. *)
Lemma close_replays bsz sh h E s s' : dinv h E s -> Z.of_nat (length h) < 2 ^ 32 ->
  d_close bsz sh s = (s', Ret tt) ->
  replay (written_by (ds_file s) (ds_file s')) (f_data (ds_file s)) = f_data (ds_file s').
Proof.
  intros I Hl Hc.
  destruct (close_inv bsz sh h E s I Hl) as (s1 & Hc1 & Hd1 & _ & Hlog). rewrite Hc in Hc1. injection Hc1 as <-.
  pose proof (inv_flushed h E s sh I Hl) as Hfl.
  set (F := visit sh (ds_new s)) in *. set (g := flushed_file (ds_total s) F (ds_file s)) in *.
  assert (Hg : f_log g = f_log (ds_file s) ++ written_by (ds_file s) g).
  { unfold g, F. rewrite (written_flush h E) by done. apply flushed_log, I. }
  assert (Hw : written_by (ds_file s) (ds_file s') = written_by (ds_file s) g ++ [WSet 9 0]).
  { unfold written_by at 1. by rewrite Hlog, Hg, <- app_assoc, drop_app_alt. }
  assert (Hr : replay (written_by (ds_file s) g) (f_data (ds_file s)) = f_data g).
  { unfold g, F. rewrite (written_flush h E) by done. rewrite replay_app. unfold flushed_file.
    rewrite fput_replay. cbn [fset_pos f_pos f_data]. unfold hdr_file at 2. rewrite fput_replay.
    cbn [fset_pos f_pos f_data]. f_equal. f_equal. rewrite (hdr_file_data _ E) by apply I.
    rewrite !app_length, be_enc_length, recs_length. cbn [length delta_magic]. lia. }
  rewrite Hw, replay_app, Hr, Hfl, Hd1. by rewrite !img_enc.
Qed.
