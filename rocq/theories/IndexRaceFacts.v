(** Facts about simultaneous calls of Open on an index file. *)
From Verif Require Import Base GoIO Lock Index SpecFile SpecLock SpecIndex IndexSession DeltaRace IndexRace GoIOFacts
  CodecFacts LockFacts DeltaFacts DeltaStoreFacts IndexFacts.

Lemma iopen_parts bsz rsz c f :
  i_open bsz rsz c f = (do x <- i_open_check bsz rsz c; i_open_lock rsz c x) f.
Proof.
  unfold i_open, i_open_check, i_open_lock, i_load, with_breader, closing, iomaperr, iobind, ioret, iofail.
  destruct (fseek 0 SeekEnd f) as [f1 [size| | |]] eqn:E0; try done.
  destruct (0 <? size).
  2:{ destruct (i_create bsz f1) as [f2 [[]| | |]]; done. }
  destruct (fseek 0 SeekStart f1) as [f2 [?| | |]]; try done.
  destruct (i_read_prefix (br_read fread rsz) (new_breader f2)) as [b1 [?| | |]]; try done.
  destruct (i_read_header (br_read fread rsz) b1) as [b2 [hdr| | |]]; try done.
  destruct (negb (ih_locked hdr =? 0)); [done|]. by destruct b2 as [g buf e].
Qed.

(** [d] is the content, [b] the lock byte. *)
Definition iat b (l : list (Z * Z)) tail : list byte := index_image b l ++ tail.

Lemma iat_shape b l tail : iat b l tail = index_magic ++ 1 :: b :: be_enc 4 (Z.of_nat (length l)) ++ ipairs l ++ tail.
Proof. apply image_shape. Qed.

Lemma iat_length b l tail : length (iat b l tail) = (12 + 16 * length l + length tail)%nat.
Proof.
  rewrite iat_shape, app_length. cbn [length]. rewrite !app_length, be_enc_length, ipairs_length. cbn. lia.
Qed.

Lemma iat_drop b b' l tail p : (8 <= p)%nat -> drop p (iat b l tail) = drop p (iat b' l tail).
Proof.
  intros Hp. rewrite !iat_shape. replace p with (8 + (p - 8))%nat by lia. by rewrite <- !drop_drop.
Qed.

(** What a call has read before the lock. *)
Definition iready (rsz : nat) b l tail (f : file) (x : option iprogress) : Prop :=
  exists buf hdr, x = Some (buf, None, hdr) /\ ih_count hdr = Z.of_nat (length l) /\
    healthy f /\ (12 <= f_pos f)%nat /\ (f_pos f <= length (iat b l tail))%nat /\
    buf ++ drop (f_pos f) (iat b l tail) = ipairs l ++ tail.

Lemma iready_any rsz b b' l tail f x : iready rsz b l tail f x -> iready rsz b' l tail f x.
Proof.
  intros (buf & hdr & -> & Hc & Hh & Hp & Hp' & Hr). exists buf, hdr. rewrite iat_length in *.
  do 5 (split; [done|]). rewrite <- Hr. f_equal. apply iat_drop. lia.
Qed.

Lemma icheck_free bsz rsz c f l tail : (0 < rsz)%nat -> healthy f -> Z.of_nat (length l) < 2 ^ 32 ->
  f_data f = iat 0 l tail ->
  exists p x, i_open_check bsz rsz c f = (fset_pos p f, Ret x) /\ iready rsz 0 l tail (fset_pos p f) x.
Proof.
  intros Hrsz Hh Hl Hd. unfold i_open_check, iobind at 1, closing at 1. rewrite fseek_end by done.
  rewrite (proj2 (Z.ltb_lt 0 _)) by (rewrite Hd, iat_length; lia).
  unfold closing, iomaperr at 1. unfold iobind at 1.
  change 0 with (Z.of_nat 0) at 1. rewrite fseek_start_nat; [|done|right; cbn; lia].
  set (b0 := new_breader _).
  assert (Hb0 : br_ok reading_ok b0) by (split; [split; [done|cbn; lia]|done]).
  assert (Hrem0 : br_rem frem b0 = f_data f) by (unfold br_rem, frem; cbn; by rewrite drop_0).
  unfold iobind at 1, iomaperr at 1.
  destruct (follows_iprefix _ _ _ _ (breader_reading rsz Hrsz) b0 Hb0) as (b1 & E1 & Hb1 & Hrem1 & Hfr1).
  rewrite Hrem0, Hd, iat_shape, iread_prefix_ok in *. rewrite E1. cbn [fst snd] in *.
  unfold iobind at 1, iomaperr at 1.
  destruct (follows_iheader _ _ _ _ (breader_reading rsz Hrsz) b1 Hb1) as (b2 & E2 & Hb2 & Hrem2 & Hfr2).
  rewrite Hrem1, iread_header_app in * by apply be_enc_length. rewrite E2. cbn [fst snd ih_locked ih_count] in *.
  change (negb (0 =? 0)) with false. cbv iota.
  assert (Hf2 : br_r b2 = fset_pos (f_pos (br_r b2)) f).
  { apply fframe_pos. unfold br_frame in Hfr1, Hfr2. by rewrite Hfr2, Hfr1. }
  destruct Hb2 as [[Hh2 Hp2] He2].
  assert (Hd2 : f_data (br_r b2) = iat 0 l tail) by (rewrite Hf2; by rewrite iat_shape).
  eexists (f_pos (br_r b2)), _. split; [f_equal; exact Hf2|]. rewrite <- Hf2.
  eexists (br_buf b2), _. rewrite He2. split; [done|]. cbn [ih_count].
  split; [apply be_dec_enc; rewrite pow256_4; lia|]. split; [done|].
  unfold br_rem, frem in Hrem2. rewrite Hd2 in Hrem2, Hp2.
  split; [|split; [done|done]].
  apply (f_equal length) in Hrem2. rewrite !app_length, drop_length, iat_length, ipairs_length in Hrem2.
  rewrite iat_length in Hp2. lia.
Qed.

Lemma icheck_locked bsz rsz c f l tail : (0 < rsz)%nat -> healthy f -> f_data f = iat 1 l tail ->
  exists f' e, i_open_check bsz rsz c f = (f', Err e) /\ f_data f' = f_data f.
Proof.
  intros Hrsz Hh Hd. destruct (i_open_bad bsz rsz c f Hrsz Hh) as (f' & e & Ho & Hd').
  { by rewrite Hd. } { right. right. exists 1. by rewrite Hd. }
  rewrite iopen_parts in Ho. unfold iobind in Ho.
  destruct (i_open_check bsz rsz c f) as [f1 [x| | |]] eqn:E1; try done.
  2:{ injection Ho as -> ->. eauto. }
  exfalso. revert E1. unfold i_open_check, iobind at 1, closing at 1. rewrite fseek_end by done.
  rewrite (proj2 (Z.ltb_lt 0 _)) by (rewrite Hd, iat_length; lia).
  unfold closing, iomaperr at 1. unfold iobind at 1.
  change 0 with (Z.of_nat 0) at 1. rewrite fseek_start_nat; [|done|right; cbn; lia].
  set (b0 := new_breader _).
  assert (Hb0 : br_ok reading_ok b0) by (split; [split; [done|cbn; lia]|done]).
  assert (Hrem0 : br_rem frem b0 = f_data f) by (unfold br_rem, frem; cbn; by rewrite drop_0).
  unfold iobind at 1, iomaperr at 1.
  destruct (follows_iprefix _ _ _ _ (breader_reading rsz Hrsz) b0 Hb0) as (b1 & E1 & Hb1 & Hrem1 & Hfr1).
  rewrite Hrem0, Hd, iat_shape, iread_prefix_ok in *. rewrite E1. cbn [fst snd] in *.
  unfold iobind at 1, iomaperr at 1.
  destruct (follows_iheader _ _ _ _ (breader_reading rsz Hrsz) b1 Hb1) as (b2 & E2 & Hb2 & Hrem2 & Hfr2).
  rewrite Hrem1, iread_header_app in * by apply be_enc_length. rewrite E2. cbn [fst snd ih_locked ih_count] in *.
  done.
Qed.

Lemma ilock_ready rsz c x b f l tail : (0 < rsz)%nat -> Forall pair_typed l -> iready rsz b l tail f x ->
  exists f', i_open_lock rsz c x (seen (iat b l tail) f) = (f', Ret (IStore (imap ∅ l) f' c)) /\
    f_data f' = iat 1 l tail /\ healthy f' /\ (f_pos f' <= length (f_data f'))%nat.
Proof.
  intros Hrsz Ht (buf & hdr & -> & Hc & Hh & Hp & Hp' & Hr). unfold i_open_lock, iobind at 1, closing, iomaperr at 1.
  unfold iobind at 1, iomaperr at 1, under_reader. cbn [br_r br_buf br_err].
  change i_write_locked with (write_locked_at (Z.of_nat 7)). rewrite iat_length in Hp'.
  rewrite write_locked_ok; [|done|right; cbn [seen f_data f_pos]; rewrite iat_length; lia|right; cbn [seen f_data f_pos]; rewrite iat_length; lia].
  cbn [seen f_data f_pos f_kind f_log]. set (f3 := File _ _ _ _ _ _).
  assert (Hd3 : f_data f3 = iat 1 l tail) by (unfold f3; cbn [f_data]; by rewrite !iat_shape).
  set (b3 := BReader f3 buf None).
  assert (Hb3 : br_ok reading_ok b3).
  { split; [|done]. split; [done|]. cbn [b3 br_r]. rewrite Hd3. cbn [f3 f_pos]. rewrite iat_length. lia. }
  assert (Hrem3 : br_rem frem b3 = ipairs l ++ tail).
  { rewrite <- Hr. unfold br_rem, frem. cbn [b3 br_buf br_r]. f_equal. rewrite Hd3. cbn [f3 f_pos].
    apply iat_drop. lia. }
  destruct (follows_ientries _ _ _ _ (breader_reading rsz Hrsz) (Z.to_nat (ih_count hdr)) ∅ b3 Hb3)
    as (b4 & E4 & Hb4 & Hrem4 & Hfr4).
  rewrite Hrem3, Hc, Nat2Z.id, iload_entries_app in E4 by done. rewrite Hc, Nat2Z.id. rewrite E4. cbn [snd].
  assert (Hf4 : br_r b4 = fset_pos (f_pos (br_r b4)) f3).
  { apply fframe_pos. unfold br_frame in Hfr4. by rewrite Hfr4. }
  exists (br_r b4). split; [done|]. destruct Hb4 as [[Hh4 Hp4] _]. split; [by rewrite Hf4|]. done.
Qed.

(** ** Where a race can be *)

Definition istage (rsz : nat) (c : bool) (b : Z) l tail (o : iopener) : Prop :=
  match o with
  | IWaiting f => healthy f
  | IChecked f x => iready rsz b l tail f x
  | IOpened s => b = 1 /\ is_map s = imap ∅ l /\ is_closer s = c /\ healthy (is_file s) /\ f_data (is_file s) = iat 1 l tail /\
      (f_pos (is_file s) <= length (iat 1 l tail))%nat
  | IRefused => True
  end.

Definition iis_open (o : iopener) : bool := match o with IOpened _ => true | _ => false end.

Definition iat_stage rsz c l tail (d : list byte) (os : list iopener) : Prop :=
  exists b, d = iat b l tail /\ Forall (istage rsz c b l tail) os /\
    (b = 0 /\ existsb iis_open os = false \/ b = 1 /\ existsb iis_open os = true).

Lemma iexistsb_insert_open os i o : (i < length os)%nat -> iis_open o = true ->
  existsb iis_open (<[i := o]> os) = true.
Proof.
  intros Hi Ho. apply existsb_exists. exists o. split; [|done].
  apply elem_of_list_In, elem_of_list_lookup. exists i. by rewrite list_lookup_insert.
Qed.

Lemma iexistsb_insert_same os i o o' : os !! i = Some o' -> iis_open o = iis_open o' ->
  existsb iis_open (<[i := o]> os) = existsb iis_open os.
Proof.
  revert i. induction os as [|a os IH]; intros [|i] Hi Ho; try done.
  - injection Hi as ->. cbn. by rewrite Ho.
  - cbn. f_equal. by apply IH.
Qed.

Lemma istage_weaken rsz c b l tail o : istage rsz c b l tail o -> istage rsz c 1 l tail o.
Proof.
  destruct o; cbn [istage]; try done.
  - apply iready_any.
  - by intros [-> ?].
Qed.

Lemma irace_stage bsz rsz c l tail d os : (0 < rsz)%nat -> Forall pair_typed l -> Z.of_nat (length l) < 2 ^ 32 ->
  irace bsz rsz c (iat 0 l tail) d os -> iat_stage rsz c l tail d os.
Proof.
  intros Hrsz Ht Hl. induction 1 as [fs Hfs|d os i f _ IH Hi|d os i f x _ IH Hi].
  - exists 0. split; [done|]. split.
    + apply Forall_map. eapply Forall_impl; [exact Hfs|]. by intros f [(Hc & He & _) _].
    + left. split; [done|]. clear. induction fs; [done|]. cbn. done.
  - destruct IH as (b & -> & Hs & Hb).
    pose proof (Forall_lookup_1 _ _ _ _ Hs Hi) as Hh. cbn in Hh.
    destruct Hb as [[-> Hb] | [-> Hb]].
    + destruct (icheck_free bsz rsz c (seen (iat 0 l tail) f) l tail) as (p & x & Hc & Hr); try done.
      rewrite Hc. cbn [fst fset_pos f_data iafter_check seen].
      exists 0. split; [done|]. split.
      * apply Forall_insert; [done|]. exact Hr.
      * left. split; [done|]. by rewrite (iexistsb_insert_same _ _ _ _ Hi).
    + destruct (icheck_locked bsz rsz c (seen (iat 1 l tail) f) l tail) as (f' & e & Hc & Hd'); try done.
      rewrite Hc. cbn [fst iafter_check]. rewrite Hd'. cbn [seen f_data].
      exists 1. split; [done|]. split.
      * by apply Forall_insert.
      * right. split; [done|]. by rewrite (iexistsb_insert_same _ _ _ _ Hi).
  - pose proof (lookup_lt_Some _ _ _ Hi) as Hlt.
    destruct IH as (b & -> & Hs & Hb).
    pose proof (Forall_lookup_1 _ _ _ _ Hs Hi) as Hr. cbn in Hr.
    destruct (ilock_ready rsz c x b f l tail) as (f' & Hc & Hd' & Hh' & Hp'); try done.
    rewrite Hc. cbn [fst iafter_lock]. exists 1. split; [done|]. split.
    + apply Forall_insert; [by eapply Forall_impl; [exact Hs|intros o; apply istage_weaken]|].
      cbn [istage is_map is_file is_closer]. by rewrite <- Hd'.
    + right. split; [done|]. by apply iexistsb_insert_open.
Qed.

(** Closing on a file that another index has closed. *)
Lemma close_over bsz sh s a b cnt rest : healthy (is_file s) -> length cnt = 4%nat ->
  f_data (is_file s) = index_magic ++ a :: b :: cnt ++ rest ->
  exists s' tail, i_close bsz sh s = (s', Ret tt) /\
    f_data (is_file s') = index_image 0 (shuf sh (map_to_list (is_map s))) ++ tail.
Proof.
  intros Hh Hc Hd. rewrite i_close_ok; [|done|right; rewrite Hd, app_length; cbn; lia].
  eexists _, _. split; [done|]. cbn [is_file].
  rewrite close_if_data, (isaved_data _ _ _ _ _ rest cnt Hc Hd), index_image_enc, saved_length. unfold hdr0.
  by rewrite <- !app_assoc.
Qed.

(** Two calls, each checking before the other locks. *)
Lemma iboth_open bsz rsz c l tail f g : (0 < rsz)%nat -> Forall pair_typed l -> Z.of_nat (length l) < 2 ^ 32 ->
  usable f -> f_data f = iat 0 l tail -> usable g -> f_data g = iat 0 l tail ->
  exists s t, irace bsz rsz c (iat 0 l tail) (iat 1 l tail) [IOpened s; IOpened t].
Proof.
  intros Hrsz Ht Hl (Hfc & Hfe & Hfp) Hfd (Hgc & Hge & Hgp) Hgd.
  assert (Hhf : healthy (seen (iat 0 l tail) f)) by done.
  assert (Hhg : healthy (seen (iat 0 l tail) g)) by done.
  assert (R0 : irace bsz rsz c (iat 0 l tail) (iat 0 l tail) [IWaiting f; IWaiting g]).
  { apply (irace_start _ _ _ _ [f; g]). repeat (apply Forall_cons; split; [done|]). done. }
  destruct (icheck_free bsz rsz c _ l tail Hrsz Hhf Hl eq_refl) as (p & x & C1 & I1).
  destruct (icheck_free bsz rsz c _ l tail Hrsz Hhg Hl eq_refl) as (q & y & C2 & I2).
  set (f1 := fset_pos p (seen (iat 0 l tail) f)) in *. set (g1 := fset_pos q (seen (iat 0 l tail) g)) in *.
  assert (R1 : irace bsz rsz c (iat 0 l tail) (iat 0 l tail) [IChecked f1 x; IWaiting g]).
  { pose proof (irace_check _ _ _ _ _ _ 0%nat f R0 eq_refl) as R1. rewrite C1 in R1. exact R1. }
  assert (R2 : irace bsz rsz c (iat 0 l tail) (iat 0 l tail) [IChecked f1 x; IChecked g1 y]).
  { pose proof (irace_check _ _ _ _ _ _ 1%nat g R1 eq_refl) as R2. rewrite C2 in R2. exact R2. }
  destruct (ilock_ready rsz c x 0 f1 l tail Hrsz Ht I1) as (f2 & L1 & D1 & _).
  assert (R3 : irace bsz rsz c (iat 0 l tail) (iat 1 l tail) [IOpened (IStore (imap ∅ l) f2 c); IChecked g1 y]).
  { pose proof (irace_lock _ _ _ _ _ _ 0%nat f1 x R2 eq_refl) as R3. rewrite L1 in R3. cbn [fst] in R3.
    rewrite D1 in R3. exact R3. }
  destruct (ilock_ready rsz c y 1 g1 l tail Hrsz Ht (iready_any _ _ _ _ _ _ _ I2)) as (g2 & L2 & D2 & _).
  eexists _, _.
  pose proof (irace_lock _ _ _ _ _ _ 1%nat g1 y R3 eq_refl) as R4. rewrite L2 in R4. cbn [fst] in R4.
  rewrite D2 in R4. exact R4.
Qed.

Lemma i_calls_file h : forall s, is_file (i_calls h s) = is_file s.
Proof.
  induction h as [|e h IH]; intros s; [done|]. cbn [i_calls fold_left]. change (fold_left _ h ?x) with (i_calls h x).
  rewrite IH. destruct e; [done|]. cbn [i_call]. unfold i_remove. by destruct (is_map s !! id).
Qed.

Lemma i_calls_typed h : Forall iv_typed h -> forall s, map_typed (is_map s) -> map_typed (is_map (i_calls h s)).
Proof.
  induction 1 as [|e h He _ IH]; intros s Hs; [done|]. cbn [i_calls fold_left]. change (fold_left _ h ?x) with (i_calls h x).
  apply IH. destruct e as [k v|k]; cbn [i_call].
  - intros a b. cbn [i_put is_map]. rewrite lookup_insert_Some. intros [[<- <-] | [_ Hk]]; [done|]. by apply Hs.
  - unfold i_remove. destruct (is_map s !! k); [|done]. intros a b. cbn [is_map]. rewrite lookup_delete_Some.
    intros [_ Hk]. by apply Hs.
Qed.

Lemma i_calls_size h : forall s, (size (is_map (i_calls h s)) <= size (is_map s) + length h)%nat.
Proof.
  induction h as [|e h IH]; intros s; [cbn; lia|]. cbn [i_calls fold_left length]. change (fold_left _ h ?x) with (i_calls h x).
  rewrite IH. destruct e as [k v|k]; cbn [i_call].
  - cbn [i_put is_map]. rewrite map_size_insert. destruct (is_map s !! k); cbn; lia.
  - unfold i_remove. destruct (is_map s !! k); [|lia]. cbn [is_map]. rewrite map_size_delete.
    destruct (is_map s !! k); cbn; lia.
Qed.
