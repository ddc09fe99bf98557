(** Delta files with any number of records. *)
From Verif Require Import Base GoIO Lock Delta SpecFile SpecLock SpecDelta DeltaSession GoIOFacts
  CodecFacts LockFacts DeltaFacts DeltaRecoverFacts DeltaStoreFacts DeltaHistFacts.

(** ** One opening *)

Lemma call_inv_any bsz c h E s : dinv h E s -> ev_typed (event_of c) ->
  exists s' E', d_call bsz c s = (s', Ret tt) /\ dinv (h ++ [event_of c]) E' s'.
Proof.
  intros I Ht. destruct c as [op u i|sh]; cbn [d_call event_of] in *.
  - eexists _, E. split; [done|]. destruct Ht as (? & ? & ?). by apply add_inv.
  - destruct (flush_inv_any bsz sh h E s I) as (s' & H & I' & _). eauto.
Qed.

Lemma calls_inv_any bsz cs : forall h E s, dinv h E s -> Forall ev_typed (map event_of cs) ->
  exists s' E', d_calls bsz cs s = (s', Ret tt) /\ dinv (h ++ map event_of cs) E' s'.
Proof.
  induction cs as [|c cs IH]; intros h E s I Ht; cbn [map d_calls] in *.
  - exists s, E. by rewrite app_nil_r.
  - apply Forall_cons in Ht as [Hc Ht]. destruct (call_inv_any bsz c h E s I Hc) as (s1 & E1 & H1 & I1).
    destruct (IH _ _ _ I1 Ht) as (s2 & E2 & H2 & I2). exists s2, E2. unfold iobind. rewrite H1. split; [done|].
    by rewrite <- app_assoc in I2.
Qed.

Lemma opened_empty_inv f : usable f -> f_data f = [] ->
  exists f' s, d_open f = (f', Ret s) /\ dinv [] [] s /\ ds_new s = ∅.
Proof.
  intros (Hc & He & Hp) Hd. destruct (d_open_empty f) as (log & Ho'); [done|done|]. cbn zeta in Ho'.
  eexists _, _. split; [exact Ho'|]. split; [|done].
  apply opened_inv; try done; [right; cbn; lia|]. intros x Hx. inversion Hx.
Qed.

(** [n] times the same Add, flushed each time: [n] records. *)
Lemma same_again bsz sh op u i n : is_byte op -> is_u64 u -> is_u64 i ->
  forall h E s, dinv h E s -> ds_new s = ∅ ->
  exists s' E', d_calls bsz (concat (replicate n [DAdd op u i; DFlush sh])) s = (s', Ret tt) /\
    dinv (h ++ concat (replicate n [EvAdd op u i; EvFlush])) E' s' /\ ds_new s' = ∅ /\
    length E' = (length E + n)%nat.
Proof.
  intros Hop Hu Hi. induction n as [|n IH]; intros h E s I Hn.
  - exists s, E. cbn [replicate concat d_calls]. rewrite app_nil_r. split; [done|]. split; [done|]. split; [done|lia].
  - cbn [replicate concat app d_calls d_call].
    pose proof (add_inv op u i h E s I Hop Hu Hi) as I1.
    destruct (flush_inv_any bsz sh _ E _ I1) as (s2 & H2 & I2 & _ & Hn2).
    destruct (IH _ _ _ I2 Hn2) as (s3 & E3 & H3 & I3 & Hn3 & Hl3).
    exists s3, E3. unfold iobind. rewrite H2. split; [exact H3|].
    split; [by rewrite <- !app_assoc in I3|]. split; [done|]. rewrite Hl3, app_length.
    assert (length (visit sh (ds_new (d_add op u i s))) = 1%nat) as ->; [|lia].
    rewrite visit_length. unfold d_add. rewrite Hn, lookup_empty. cbn [default replace_delta ds_new app].
    rewrite pend_insert, delete_empty. done.
Qed.

(** ** Closing and opening *)

(** A file that holds the records [E] and announces [n]. *)
Definition himg (locked : Z) (n : nat) (E : list entry) : list byte :=
  delta_magic ++ [1; locked] ++ be_enc 4 (Z.of_nat n) ++ recs E.

Lemma himg_length b n E : length (himg b n E) = (14 + 18 * length E)%nat.
Proof. unfold himg. rewrite !app_length, be_enc_length, recs_length. cbn. lia. Qed.

Definition seen (n : nat) (E : list entry) : list entry := take (Z.to_nat (u32 (Z.of_nat n))) E.

Lemma seen_length n E : (n <= length E)%nat -> Z.of_nat (length (seen n E)) = u32 (Z.of_nat n).
Proof.
  intros Hn. unfold seen. rewrite take_length. unfold u32.
  pose proof (Z.mod_pos_bound (Z.of_nat n) (2 ^ 32) ltac:(lia)).
  pose proof (Z.mod_le (Z.of_nat n) (2 ^ 32) ltac:(lia) ltac:(lia)). lia.
Qed.

Lemma d_open_himg f n E : healthy f -> Forall ent_typed E -> (n <= length E)%nat -> f_data f = himg 0 n E ->
  exists p, (p <= length (f_data f))%nat /\
  let f' := File (f_kind f) (himg 1 n E) p false [] (f_log f ++ [WSet 9 1]) in
  d_open f = (f', Ret (DStore (group (seen n E)) ∅ (u32 (Z.of_nat n)) 0 f')).
Proof.
  intros Hh Ht Hn Hd.
  assert (Hi : forall b, himg b n E = delta_magic ++ 1 :: b :: be_enc 4 (Z.of_nat n) ++
    concat (map rec_of (seen n E)) ++ recs (drop (length (seen n E)) E)).
  { intros b. unfold himg. do 2 f_equal. cbn [app]. do 3 f_equal. change (concat (map rec_of (seen n E))) with (recs (seen n E)).
    rewrite <- recs_app. unfold seen at 1. rewrite <- (take_drop (Z.to_nat (u32 (Z.of_nat n))) E) at 1. f_equal. f_equal.
    f_equal. pose proof (seen_length n E Hn). lia. }
  destruct (d_open_nonempty f Hh) as (p & Hp & Ho).
  { rewrite Hd, (Hi 0). done. }
  exists p. split; [done|]. rewrite Ho, Hd, (Hi 0), (Hi 1).
  rewrite d_load_ok; [|apply be_enc_length| |apply recs_len].
  - cbn [snd]. rewrite map_dec_rec by (unfold seen; by apply Forall_take).
    rewrite splice_lock, map_length, seen_length by done. done.
  - rewrite map_length, seen_length by done. rewrite <- be_enc_mod, be_dec_enc; [done|].
    apply Z.mod_pos_bound. done.
Qed.

Definition with_file (f : file) (s : dstore) : dstore :=
  DStore (ds_cache s) (ds_new s) (ds_total s) (ds_unflushed s) f.

(** The file holds the records [E], the storage knows of [V]. *)
Record winv (E V : list entry) (s : dstore) : Prop := {
  wi_ok : healthy (ds_file s);
  wi_pos : can_seek (ds_file s) (f_pos (ds_file s));
  wi_data : f_data (ds_file s) = himg 1 (length V) E;
  wi_typed : Forall ent_typed E;
  wi_len : (length V <= length E)%nat;
  wi_mem : exists h f, dinv h V (with_file f s)
}.

Lemma ops_dinv V s : Forall ent_typed V -> ds_cache s = group V -> ds_new s = ∅ ->
  ds_total s = Z.of_nat (length V) -> exists h f, dinv h V (with_file f s).
Proof.
  intros Ht Hc Hn Htot.
  exists (map (fun x => EvAdd (id_op (snd x)) (fst x) (id_item (snd x))) V ++ [EvFlush]), (File KOs (img 1 V) 0 false [] []).
  set (ops := map (fun x : entry => (id_op (snd x), fst x, id_item (snd x))) V).
  assert (Hev : map (fun x : entry => EvAdd (id_op (snd x)) (fst x) (id_item (snd x))) V = map op_event ops).
  { unfold ops. rewrite map_map. done. }
  assert (Hen : V = map op_ent ops).
  { unfold ops. rewrite map_map. rewrite <- (map_id V) at 1. apply map_ext. by intros [u [i o]]. }
  apply opened_inv; try done.
  - by left.
  - rewrite app_length, map_length. cbn. lia.
  - apply unflushed_flush.
  - intros u i. rewrite durable_flush, last_add_app. cbn [last_add]. rewrite Hev, Hen at 1. apply latest_ops.
  - intros u. rewrite durable_flush, mentioned_app. unfold mentioned at 2. cbn [existsb mentions].
    rewrite orb_false_r. rewrite Hev, Hen at 1. apply users_ops.
  - intros x Hx. apply elem_of_app. left. apply elem_of_list_fmap. by exists x.
Qed.

Lemma himg_flushed t n E F f : f_data f = himg 1 n E -> t = Z.of_nat (n + length F) ->
  f_data (flushed_file t F f) = himg 1 (n + length F) (E ++ F).
Proof.
  intros Hd Ht. unfold flushed_file. rewrite fput_data by (cbn; lia). cbn [fset_pos f_pos f_data].
  rewrite splice_end. unfold hdr_file. rewrite fput_data by (cbn [fset_pos f_pos f_data]; rewrite Hd, himg_length; lia).
  cbn [fset_pos f_pos f_data]. rewrite Hd. unfold himg. rewrite splice_header by done. rewrite recs_app.
  change (u32 t) with (t mod 256 ^ Z.of_nat 4). rewrite be_enc_mod, Ht. rewrite <- !app_assoc. done.
Qed.

Lemma winv_flush bsz sh E V s : winv E V s ->
  exists s', d_flush bsz sh s = (s', Ret tt) /\ winv (E ++ visit sh (ds_new s)) (V ++ visit sh (ds_new s)) s' /\
    ds_new s' = ∅ /\ ds_total s' = ds_total s.
Proof.
  intros [Hok Hpos Hd Ht Hl (h & f & I)].
  pose proof (visit_typed _ _ _ sh I) as Hv. cbn [with_file ds_new] in Hv.
  assert (Hs8 : can_seek (ds_file s) 8) by (right; rewrite Hd, himg_length; lia).
  rewrite d_flush_ok by done. eexists. split; [done|]. split; [|done].
  pose proof (di_total _ _ _ I) as Htot. cbn [with_file ds_new ds_total] in Htot.
  assert (Hd' : f_data (flushed_file (ds_total s) (visit sh (ds_new s)) (ds_file s)) =
    himg 1 (length (V ++ visit sh (ds_new s))) (E ++ visit sh (ds_new s))).
  { rewrite app_length. apply himg_flushed; [done|]. by rewrite visit_length. }
  split; cbn [ds_file].
  - by apply flushed_file_healthy.
  - right. unfold flushed_file at 1. rewrite fput_pos. cbn [fset_pos f_pos].
    unfold flushed_file. rewrite fput_data by (cbn; lia). cbn [fset_pos f_pos f_data].
    rewrite splice_end, app_length. lia.
  - done.
  - apply Forall_app. done.
  - rewrite !app_length. lia.
  - destruct (flush_inv_any bsz sh _ _ _ I) as (s1 & H1 & I1 & _).
    rewrite d_flush_ok in H1; [|apply I|by eapply inv_seek; [done|lia]|done].
    injection H1 as <-. eexists _, _. cbn [with_file ds_new ds_total ds_cache ds_unflushed ds_file] in I1.
    unfold with_file. cbn [ds_new ds_total ds_cache ds_unflushed ds_file]. exact I1.
Qed.

Lemma winv_close bsz sh E V s : winv E V s ->
  exists s', d_close bsz sh s = (s', Ret tt) /\
    f_data (ds_file s') = himg 0 (length (V ++ visit sh (ds_new s))) (E ++ visit sh (ds_new s)) /\
    f_closed (ds_file s') = true.
Proof.
  intros W. destruct (winv_flush bsz sh E V s W) as (s1 & H1 & W1 & _).
  unfold d_close, iobind, iomaperr. rewrite H1.
  unfold on_dfile at 1. unfold d_write_locked. change delta_locked_offset with (Z.of_nat 9).
  rewrite write_locked_ok; [|apply W1|apply W1|right; rewrite (wi_data _ _ _ W1), himg_length; lia].
  unfold on_dfile. cbn [ds_file].
  set (f2 := File _ _ _ _ _ _).
  assert (Hcl : fclose f2 = (File (f_kind f2) (f_data f2) (f_pos f2) true (f_env f2) (f_log f2), Ret tt)).
  { by apply fclose_healthy. }
  rewrite Hcl. eexists. split; [done|]. subst f2. cbn [ds_file f_data f_closed f_log]. rewrite (wi_data _ _ _ W1).
  split; done.
Qed.

Lemma winv_open f n E : usable f -> Forall ent_typed E -> (n <= length E)%nat -> f_data f = himg 0 n E ->
  exists f' t, d_open f = (f', Ret t) /\ ds_new t = ∅ /\ ds_cache t = group (seen n E) /\
    ds_total t = u32 (Z.of_nat n) /\ winv E (seen n E) t.
Proof.
  intros (Hc & He & Hp) Ht Hn Hd. destruct (d_open_himg f n E) as (p & Hp' & Ho); try done. cbn zeta in Ho.
  eexists _, _. split; [exact Ho|]. do 3 (split; [done|]).
  pose proof (seen_length n E Hn) as Hsl.
  split; cbn [ds_file f_pos f_data].
  - done.
  - right. cbn [f_data f_pos ds_file]. rewrite himg_length. rewrite Hd, himg_length in Hp'. lia.
  - unfold himg. rewrite Hsl. change (u32 (Z.of_nat n)) with (Z.of_nat n mod 256 ^ Z.of_nat 4). by rewrite be_enc_mod.
  - done.
  - unfold seen. rewrite take_length. lia.
  - apply ops_dinv; cbn [ds_cache ds_new ds_total]; try done.
    unfold seen. by apply Forall_take.
Qed.

Lemma dinv_wide h E s : dinv h E s -> winv E E s.
Proof.
  intros I. split; try apply I.
  - rewrite (di_data _ _ _ I). apply img_enc.
  - done.
  - exists h, (ds_file s). by destruct s.
Qed.

Lemma session_wide bsz h s : session bsz h s -> exists E V, winv E V s.
Proof.
  induction 1 as [f f' s Hu Hd Ho | f f' s ops Hu Ht Hd Ho | h s c s' _ IH Ht Hcall
                  | h s sh s' f f' t _ IH Hcl Hu Hd Ho].
  - destruct (opened_empty_inv f Hu Hd) as (f1 & s1 & Ho1 & I1 & _). rewrite Ho in Ho1. injection Ho1 as -> ->.
    exists [], []. by apply dinv_wide in I1.
  - destruct (winv_open f (length ops) (map op_ent ops)) as (f1 & s1 & Ho1 & _ & _ & _ & W); try done.
    + by apply op_ent_typed.
    + by rewrite map_length.
    + rewrite Hd, op_ent_rec. change (delta_image 0 (map rec_of (map op_ent ops))) with (img 0 (map op_ent ops)).
      rewrite img_enc. unfold himg. by rewrite map_length.
    + rewrite Ho in Ho1. injection Ho1 as -> ->. eauto.
  - destruct IH as (E & V & W). destruct c as [op u i|sh]; cbn [d_call event_of] in *.
    + injection Hcall as <-. exists E, V. destruct Ht as (Hop & Htu & Hti).
      destruct W as [? ? ? ? ? (h0 & f & I)].
      assert (Hf : ds_file (d_add op u i s) = ds_file s) by (unfold d_add; by destruct (replace_delta _ _ _)).
      split; rewrite ?Hf; try done.
      exists (h0 ++ [EvAdd op u i]), f. pose proof (add_inv op u i _ _ _ I Hop Htu Hti) as I'.
      unfold d_add, with_file in *. cbn [ds_new ds_cache ds_total ds_unflushed ds_file] in *.
      by destruct (replace_delta _ _ _).
    + destruct (winv_flush bsz sh E V s W) as (s1 & H1 & W1 & _). rewrite Hcall in H1. injection H1 as <-. eauto.
  - destruct IH as (E & V & W). pose proof (winv_close bsz sh E V s W) as (s1 & H1 & Hd1 & _).
    rewrite Hcl in H1. injection H1 as <-.
    destruct (winv_flush bsz sh E V s W) as (s2 & _ & W2 & _).
    destruct (winv_open f (length (V ++ visit sh (ds_new s))) (E ++ visit sh (ds_new s)) Hu) as (f1 & t1 & Ho1 & _ & _ & _ & W1).
    + apply W2.
    + apply W2.
    + by rewrite Hd.
    + rewrite Ho in Ho1. injection Ho1 as -> ->. eauto.
Qed.
