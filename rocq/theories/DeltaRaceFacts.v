(** Facts about simultaneous calls of Open on a delta file. *)
From Verif Require Import Base GoIO Lock Delta SpecFile SpecLock SpecDelta DeltaSession DeltaShare DeltaRace
  GoIOFacts CodecFacts LockFacts DeltaFacts DeltaStoreFacts DeltaHistFacts DeltaCrashFacts DeltaShareFacts.

Lemma open_parts f : d_open f = (do x <- d_open_check; d_open_lock x) f.
Proof.
  unfold d_open, d_open_check, d_open_lock, iobind. destruct (fseek 0 SeekEnd f) as [f1 [size| | |]]; done.
Qed.

Lemma check_nonempty f : healthy f -> f_data f <> [] ->
  exists p, (p <= length (f_data f))%nat /\
  d_open_check f = (fset_pos p f, snd (d_load lread (f_data f))).
Proof.
  intros Hh Hd. unfold d_open_check, iobind at 1. rewrite fseek_end by done.
  assert (Hn : (Z.of_nat (length (f_data f)) =? 0) = false).
  { apply Z.eqb_neq. destruct (f_data f); [done|]. cbn. lia. }
  rewrite Hn. unfold iobind at 1.
  change 0 with (Z.of_nat 0) at 1. rewrite fseek_start_nat; [|done|right; cbn; lia].
  set (f0 := fset_pos 0 _).
  destruct (follows_load fread reading_ok frem fframe fread_lawful_in f0) as (f1 & -> & [Hh1 Hp1] & Hrem & Hfr).
  { split; [done|]. cbn. lia. }
  assert (Hf0 : frem f0 = f_data f) by (unfold frem; cbn; by rewrite drop_0).
  rewrite Hf0 in *.
  assert (Hf1 : f1 = fset_pos (f_pos f1) f).
  { destruct f1, f. unfold fframe, f0, fset_pos in *. cbn in *. congruence. }
  assert (Hd1 : f_data f1 = f_data f) by (by rewrite Hf1).
  exists (f_pos f1). split; [by rewrite <- Hd1|]. by rewrite <- Hf1.
Qed.

Lemma check_image f E : healthy f -> Forall ent_typed E -> Z.of_nat (length E) < 2 ^ 32 -> f_data f = img 0 E ->
  exists p, (p <= length (f_data f))%nat /\
  d_open_check f = (fset_pos p f, Ret (group E, Z.of_nat (length E))).
Proof.
  intros Hh Ht Hn Hd.
  assert (Hi : img 0 E = delta_magic ++ 1 :: 0 :: be_enc 4 (Z.of_nat (length E)) ++ recs E ++ []).
  { by rewrite img_enc, app_nil_r. }
  destruct (check_nonempty f Hh) as (p & Hp & Ho).
  { rewrite Hd, Hi. done. }
  exists p. split; [done|]. rewrite Ho, Hd, Hi. f_equal. unfold recs.
  rewrite d_load_ok; [|apply be_enc_length| |apply recs_len].
  - cbn [snd]. rewrite map_dec_rec by done. by rewrite map_length.
  - rewrite be_dec_enc; [by rewrite map_length|]. rewrite pow256_4. lia.
Qed.

Lemma check_locked f E : healthy f -> f_data f = img 1 E ->
  exists p e, d_open_check f = (fset_pos p f, Err e).
Proof.
  intros Hh Hd. destruct (check_nonempty f Hh) as (p & _ & Ho); [by rewrite Hd, img_enc|].
  destruct (d_load_bad (f_data f)) as (l' & e & Hload).
  { right. right. left. exists 1. rewrite Hd, img_enc. done. }
  rewrite Hload in Ho. eauto.
Qed.

Lemma check_empty f : healthy f -> f_data f = [] ->
  exists log, d_open_check f = (File (f_kind f) (img 0 []) 14 false [] log, Ret (∅, 0)).
Proof.
  intros Hh Hd. unfold d_open_check, iobind at 1. rewrite fseek_end by done. rewrite Hd. cbn [length].
  change (Z.of_nat 0 =? 0) with true. cbv iota. set (m := iobind (d_write_prefix fwrite) _).
  assert (Hm : emits healthy (fun f => f) m (delta_prefix ++ enc_header (DHeader delta_version 0 0) ++ []) (∅, 0)).
  { eapply emits_bind; [apply emits_prefix, fwrite_lawful|].
    eapply emits_bind; [apply emits_header, fwrite_lawful|]. apply emits_ret. }
  destruct (Hm (fset_pos 0 f)) as (f2 & Hm2 & Hh2 & Hf2); [by apply fset_pos_healthy|].
  rewrite Hm2. rewrite app_nil_r, delta_prefix_magic in Hf2.
  assert (Hd2 : f_data f2 = img 0 []).
  { rewrite Hf2, fput_data by (cbn; lia). cbn [fset_pos f_pos f_data]. by rewrite Hd. }
  assert (Hp2 : f_pos f2 = 14%nat) by (rewrite Hf2, fput_pos; done).
  assert (Hk2 : f_kind f2 = f_kind f) by (by rewrite Hf2, fput_kind).
  exists (f_log f2). destruct Hh2 as [Hc2 He2]. destruct f2. cbn in *. by subst.
Qed.

Lemma lock_image x b f E : healthy f -> f_data f = img b E -> can_seek f (f_pos f) ->
  exists log, let f' := File (f_kind f) (img 1 E) (f_pos f) false [] log in
  d_open_lock x f = (f', Ret (DStore (fst x) ∅ (snd x) 0 f')).
Proof.
  intros Hh Hd Hp. unfold d_open_lock, iobind, iomaperr, d_write_locked. change delta_locked_offset with (Z.of_nat 9).
  rewrite write_locked_ok; [|done|done|right; rewrite Hd, img_length; lia].
  exists (f_log f ++ [WSet 9 (lock_bit true)]). rewrite Hd. cbv zeta.
  replace (splice 9 [lock_bit true] (img b E)) with (img 1 E); [done|]. by rewrite !img_enc.
Qed.

(** ** Where a race can be *)

Definition open_hist (E : list entry) : list devent := map op_event (map ent_op E) ++ [EvFlush].

Lemma fresh_inv E k p log : Forall ent_typed E -> can_seek (File k (img 1 E) p false [] log) p ->
  dinv (open_hist E) E (DStore (group E) ∅ (Z.of_nat (length E)) 0 (File k (img 1 E) p false [] log)).
Proof.
  intros Ht Hp. unfold open_hist. set (ops := map ent_op E).
  assert (HE : E = map op_ent ops) by (symmetry; apply ent_op_ent).
  apply opened_inv; cbn [ds_file ds_cache ds_new ds_total f_pos f_data]; try done.
  - unfold ops. rewrite app_length, !map_length. cbn. lia.
  - apply unflushed_flush.
  - intros u i. rewrite ops_durable, last_add_app. cbn [last_add]. rewrite HE. apply latest_ops.
  - intros u. rewrite ops_durable, mentioned_app. unfold mentioned at 2. cbn [existsb mentions].
    rewrite orb_false_r, HE. apply users_ops.
  - intros x Hx. apply elem_of_app. left. rewrite HE in Hx. apply elem_of_list_fmap in Hx as ([[op u] i] & -> & Hx).
    apply elem_of_list_fmap. by exists (op, u, i).
Qed.

Definition stage (b : Z) (E : list entry) (o : opener) : Prop :=
  match o with
  | Waiting f => healthy f
  | Checked f x => healthy f /\ x = (group E, Z.of_nat (length E)) /\ can_seek (seen (img b E) f) (f_pos f)
  | Opened s => b = 1 /\ dinv (open_hist E) E s
  | Refused => True
  end.

Definition is_open (o : opener) : bool := match o with Opened _ => true | _ => false end.

Definition at_stage (E : list entry) (d : list byte) (os : list opener) : Prop :=
  (d = [] /\ E = [] /\ Forall (fun o => exists f, o = Waiting f /\ healthy f) os) \/
  exists b, d = img b E /\ Forall (stage b E) os /\
    (b = 0 /\ existsb is_open os = false \/ b = 1 /\ existsb is_open os = true).

Lemma existsb_insert_open os i o : (i < length os)%nat -> is_open o = true ->
  existsb is_open (<[i := o]> os) = true.
Proof.
  intros Hi Ho. apply existsb_exists. exists o. split; [|done].
  apply elem_of_list_In, elem_of_list_lookup. exists i. by rewrite list_lookup_insert.
Qed.

Lemma existsb_insert_same os i o o' : os !! i = Some o' -> is_open o = is_open o' ->
  existsb is_open (<[i := o]> os) = existsb is_open os.
Proof.
  revert i. induction os as [|a os IH]; intros [|i] Hi Ho; try done.
  - injection Hi as ->. cbn. by rewrite Ho.
  - cbn. f_equal. by apply IH.
Qed.

Lemma can_seek_img b b' E f : can_seek (seen (img b E) f) (f_pos f) -> can_seek (seen (img b' E) f) (f_pos f).
Proof.
  intros [H|H]; [by left|right]. cbn [seen f_data f_pos] in *. rewrite img_length in H. rewrite img_length. lia.
Qed.

Lemma stage_weaken b E o : stage b E o -> stage 1 E o.
Proof.
  destruct o; cbn [stage]; try done. by intros [-> ?].
Qed.

Lemma race_stage E d0 d os : Forall ent_typed E -> Z.of_nat (length E) < 2 ^ 32 ->
  d0 = img 0 E \/ (d0 = [] /\ E = []) -> race d0 d os -> at_stage E d os.
Proof.
  intros Ht Hl H0. induction 1 as [fs Hfs|d os i f _ IH Hi|d os i f x _ IH Hi].
  - assert (Hw : Forall (fun o => exists f, o = Waiting f /\ healthy f) (map Waiting fs)).
    { apply Forall_map. eapply Forall_impl; [exact Hfs|]. intros f [(Hc & He & _) _]. exists f. done. }
    destruct H0 as [-> | [-> ->]]; [right|by left].
    exists 0. split; [done|]. split.
    + eapply Forall_impl; [exact Hw|]. by intros o (f & -> & ?).
    + left. split; [done|]. clear. induction fs; [done|]. cbn. done.
  - pose proof (lookup_lt_Some _ _ _ Hi) as Hlt.
    destruct IH as [(-> & -> & Hw) | (b & -> & Hs & Hb)].
    + pose proof (Forall_lookup_1 _ _ _ _ Hw Hi) as (f1 & [= <-] & Hh).
      destruct (check_empty (seen [] f)) as (log & Hc); [done|done|]. rewrite Hc. cbn [fst f_data after_check].
      right. exists 0. split; [done|]. split.
      * apply Forall_insert; [|].
        -- eapply Forall_impl; [exact Hw|]. by intros o (g & -> & ?).
        -- cbn. split; [done|]. split; [done|]. right. cbn. lia.
      * left. split; [done|]. rewrite (existsb_insert_same _ _ _ _ Hi) by done.
        clear -Hw. induction Hw as [|o os (g & -> & _) _ IH]; done.
    + pose proof (Forall_lookup_1 _ _ _ _ Hs Hi) as Hh. cbn in Hh.
      destruct Hb as [[-> Hb] | [-> Hb]].
      * destruct (check_image (seen (img 0 E) f) E) as (p & Hp & Hc); try done. rewrite Hc. cbn [fst fset_pos f_data after_check seen].
        right. exists 0. split; [done|]. split.
        -- apply Forall_insert; [done|]. split; [done|]. split; [done|]. right. exact Hp.
        -- left. split; [done|]. by rewrite (existsb_insert_same _ _ _ _ Hi).
      * destruct (check_locked (seen (img 1 E) f) E) as (p & e & Hc); try done. rewrite Hc. cbn [fst fset_pos f_data after_check seen].
        right. exists 1. split; [done|]. split.
        -- by apply Forall_insert.
        -- right. split; [done|]. by rewrite (existsb_insert_same _ _ _ _ Hi).
  - pose proof (lookup_lt_Some _ _ _ Hi) as Hlt.
    destruct IH as [(-> & -> & Hw) | (b & -> & Hs & Hb)].
    + by pose proof (Forall_lookup_1 _ _ _ _ Hw Hi) as (f1 & [=] & Hh).
    + pose proof (Forall_lookup_1 _ _ _ _ Hs Hi) as (Hh & -> & Hp).
      destruct (lock_image (group E, Z.of_nat (length E)) b (seen (img b E) f) E) as (log & Hc); try done.
      rewrite Hc. cbn [fst snd f_data after_lock seen f_kind f_pos].
      right. exists 1. split; [done|]. split.
      * apply Forall_insert; [by eapply Forall_impl; [exact Hs|intros o; apply stage_weaken]|].
        split; [done|].
        apply (fresh_inv E (f_kind f) (f_pos f) log Ht). exact (can_seek_img _ 1 _ _ Hp).
      * right. split; [done|]. by apply existsb_insert_open.
Qed.

(** Two calls, each checking before the other locks. *)
Lemma both_open E f g : Forall ent_typed E -> Z.of_nat (length E) < 2 ^ 32 ->
  usable f -> f_data f = img 0 E -> usable g -> f_data g = img 0 E ->
  exists s t, race (img 0 E) (img 1 E) [Opened s; Opened t] /\
    dinv (open_hist E) E s /\ dinv (open_hist E) E t.
Proof.
  intros Ht Hl (Hfc & Hfe & Hfp) Hfd (Hgc & Hge & Hgp) Hgd.
  assert (Hhf : healthy (seen (img 0 E) f)) by done.
  assert (Hhg : healthy (seen (img 0 E) g)) by done.
  assert (R0 : race (img 0 E) (img 0 E) [Waiting f; Waiting g]).
  { apply (race_start _ [f; g]). repeat (apply Forall_cons; split; [done|]). done. }
  destruct (check_image _ E Hhf Ht Hl eq_refl) as (p & Hp & C1).
  destruct (check_image _ E Hhg Ht Hl eq_refl) as (q & Hq & C2).
  cbn [seen f_data] in Hp, Hq.
  set (x := (group E, Z.of_nat (length E))) in *.
  set (f1 := fset_pos p (seen (img 0 E) f)) in *. set (g1 := fset_pos q (seen (img 0 E) g)) in *.
  assert (R1 : race (img 0 E) (img 0 E) [Checked f1 x; Waiting g]).
  { pose proof (race_check _ _ _ 0%nat f R0 eq_refl) as R1. rewrite C1 in R1. exact R1. }
  assert (R2 : race (img 0 E) (img 0 E) [Checked f1 x; Checked g1 x]).
  { pose proof (race_check _ _ _ 1%nat g R1 eq_refl) as R2. rewrite C2 in R2. exact R2. }
  destruct (lock_image x 0 (seen (img 0 E) f1) E) as (log & L1); [done|done|by right|].
  cbn zeta in L1. cbn [seen f1 f_pos f_kind fset_pos] in L1.
  set (s := DStore (fst x) ∅ (snd x) 0 (File (f_kind f) (img 1 E) p false [] log)) in *.
  assert (R3 : race (img 0 E) (img 1 E) [Opened s; Checked g1 x]).
  { pose proof (race_lock _ _ _ 0%nat f1 x R2 eq_refl) as R3.
    rewrite L1 in R3. exact R3. }
  destruct (lock_image x 1 (seen (img 1 E) g1) E) as (log2 & L2); [done|done| |].
  { right. cbn [seen f_data f_pos g1 fset_pos]. rewrite img_length in Hq. rewrite img_length. lia. }
  cbn zeta in L2. cbn [seen g1 f_pos f_kind fset_pos] in L2.
  set (t := DStore (fst x) ∅ (snd x) 0 (File (f_kind g) (img 1 E) q false [] log2)) in *.
  exists s, t. split; [|split].
  - pose proof (race_lock _ _ _ 1%nat g1 x R3 eq_refl) as R4.
    rewrite L2 in R4. exact R4.
  - apply fresh_inv; [done|]. right. cbn [f_data]. rewrite img_length in *. lia.
  - apply fresh_inv; [done|]. right. cbn [f_data]. rewrite img_length in *. lia.
Qed.
