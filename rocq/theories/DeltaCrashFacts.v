(** What a crash leaves of a delta file, and what OpenMaybeRecover makes of it. *)
From Verif Require Import Base GoIO Lock Delta SpecFile SpecLock SpecCrash SpecDelta DeltaSession GoIOFacts
  CodecFacts LockFacts DeltaFacts DeltaRecoverFacts DeltaStoreFacts DeltaHistFacts.

Definition ent_op (x : entry) : Z * Z * Z := (id_op (snd x), fst x, id_item (snd x)).

Lemma ent_op_ent E : map op_ent (map ent_op E) = E.
Proof. rewrite map_map. rewrite <- (map_id E) at 2. apply map_ext. by intros [u [i o]]. Qed.
Lemma ent_op_typed E : Forall ent_typed E -> Forall op_typed (map ent_op E).
Proof. intros H. apply Forall_map. eapply Forall_impl; [done|]. intros [u d] (? & ? & ?). done. Qed.
Lemma ent_op_bytes E : map op_bytes (map ent_op E) = map rec_of E.
Proof. rewrite map_map. by apply map_ext. Qed.

(** ** Torn record sequences *)

Lemma take_recs m F : exists k tail, take m (recs F) = recs (take k F) ++ tail /\ (length tail < 18)%nat /\
  (k <= length F)%nat /\ ((18 * length F <= m)%nat -> k = length F /\ tail = []).
Proof.
  revert m. induction F as [|x F IH]; intros m.
  - exists 0%nat, []. cbn. rewrite take_nil. split; [done|]. split; [lia|]. split; [lia|]. done.
  - unfold recs. cbn [map concat]. fold (recs F).
    assert (Hr : length (rec_of x) = 18%nat) by apply op_record_length.
    destruct (decide (m < 18)%nat) as [Hm | Hm].
    + exists 0%nat, (take m (rec_of x ++ recs F)). split; [done|].
      split; [rewrite take_length; lia|]. split; [lia|]. cbn [length]. lia.
    + destruct (IH (m - 18)%nat) as (k & tail & E & Ht & Hk & Hall).
      exists (S k), tail. cbn [take map concat length]. rewrite take_app_ge by lia.
      rewrite Hr, E, <- app_assoc. split; [done|]. split; [done|]. split; [lia|].
      intros. destruct Hall as [-> ->]; [lia|]. done.
Qed.

(** A file with a good start: magic, version 1, locked, entries [E], a torn rest. *)
Lemma torn_recovers c E tail : length c = 4%nat -> (length tail < 18)%nat ->
  recovers_to (delta_magic ++ [1; 1] ++ c ++ recs E ++ tail) (img 0 E).
Proof.
  intros Hc Ht. left. exists ([1; 1] ++ c), (map rec_of E), tail.
  split; [by rewrite <- app_assoc|]. split; [rewrite app_length; cbn; lia|].
  split; [apply recs_len|]. split; [done|]. unfold img. f_equal.
  symmetry. induction E as [|x E IH]; cbn [map]; [done|].
  rewrite filter_cons_True by apply op_record_valid. by rewrite IH.
Qed.

(** OpenMaybeRecover on a locked file. *)
Lemma open_locked csz f out E x : usable f -> f_pos f = 0%nat -> (0 < csz)%nat ->
  f_data f !! 9%nat = Some x -> x <> 0 ->
  Forall is_byte (f_data f) -> Z.of_nat (length (f_data f)) < 2 ^ 32 * 18 ->
  recovers_to (f_data f) out -> out = img 0 E -> Forall ent_typed E -> Z.of_nat (length E) < 2 ^ 32 ->
  exists f1 f' t, usable f1 /\ f_data f1 = img 0 E /\ d_open f1 = (f', Ret t) /\
    d_open_maybe_recover csz f = (f', Ret t).
Proof.
  intros (Hc & He & Hp) Hpos Hcsz Hx Hne Hb Hl Hout -> Ht Hn.
  unfold d_open_maybe_recover, iobind at 1, iomaperr at 1.
  change d_is_locked with (is_locked_at (Z.of_nat 9)).
  rewrite (is_locked_ok 9 x) by done. rewrite (proj2 (Z.eqb_neq x 0)) by done. cbn [negb].
  unfold iobind at 1, iomaperr at 1.
  assert (Hrem : frem f = f_data f) by (unfold frem; by rewrite Hpos, drop_0).
  rewrite (d_recover_ok csz f (img 0 E)) by (by rewrite ?Hrem).
  set (f1 := File _ _ _ _ _ _).
  destruct (d_open_image f1 E) as (p & Hp' & Ho); try done. cbn zeta in Ho.
  eexists f1, _, _. split; [|split; [done|split; [exact Ho|by rewrite Ho]]].
  split; [done|]. split; [done|]. right. cbn. lia.
Qed.

(** ** Crash during a flush *)

Lemma written_app f f1 f2 : (exists l, f_log f1 = f_log f ++ l) -> (exists l, f_log f2 = f_log f1 ++ l) ->
  written_by f f2 = written_by f f1 ++ written_by f1 f2.
Proof.
  intros [l1 H1] [l2 H2].
  assert (E1 : written_by f f1 = l1) by (unfold written_by; rewrite H1; by rewrite drop_app_alt).
  assert (E2 : written_by f1 f2 = l2) by (unfold written_by; rewrite H2; by rewrite drop_app_alt).
  rewrite E1, E2. unfold written_by. rewrite H2, H1, <- app_assoc. by rewrite drop_app_alt.
Qed.

Lemma flushed_log t F f E : f_data f = img 1 E ->
  f_log (flushed_file t F f) =
    f_log f ++ wsets 8 ([1; 1] ++ be_enc 4 (u32 t)) ++ wsets (14 + 18 * length E) (recs F).
Proof.
  intros Hd. unfold flushed_file. rewrite fput_log. cbn [fset_pos f_log f_pos].
  rewrite (hdr_file_data t E f Hd). unfold hdr_file at 1. rewrite fput_log. cbn [fset_pos f_log f_pos].
  rewrite <- app_assoc. do 3 f_equal. rewrite !app_length, be_enc_length, recs_length. cbn [length delta_magic]. lia.
Qed.

Lemma splice_take_header j h c : (j <= 6)%nat -> length h = 6%nat ->
  splice 8 (take j h) (delta_magic ++ c) = delta_magic ++ take j h ++ drop j c.
Proof.
  intros Hj Hh. unfold splice. rewrite take_app_le by (rewrite app_length; cbn; lia). rewrite take_app_alt by done.
  rewrite take_length, Hh, Nat.min_l by lia. done.
Qed.

(** The content of the file when the process dies during a flush. *)
Lemma torn_flush E F t d j : d = img 1 E ->
  exists c m, length c = 4%nat /\ Forall is_byte c /\
    replay (take j (wsets 8 ([1; 1] ++ be_enc 4 (u32 t)) ++ wsets (14 + 18 * length E) (recs F))) d =
      delta_magic ++ [1; 1] ++ c ++ recs E ++ take m (recs F) /\
    ((6 + 18 * length F <= j)%nat -> (18 * length F <= m)%nat) /\ (j <= 6 -> m = 0)%nat.
Proof.
  intros ->. set (h := [1; 1] ++ be_enc 4 (u32 t)).
  assert (Hh : length h = 6%nat) by done.
  assert (Hw : length (wsets 8 h) = 6%nat) by (by rewrite wsets_length).
  destruct (decide (j <= 6)%nat) as [Hj | Hj].
  - rewrite take_app_le by lia. rewrite wsets_take.
    rewrite replay_wsets by (right; rewrite img_length; lia).
    rewrite img_enc. rewrite splice_take_header by done.
    set (n := be_enc 4 (Z.of_nat (length E))).
    assert (Hn : length n = 4%nat) by done. assert (Hnb : Forall is_byte n) by apply be_enc_bytes.
    assert (Hhb : Forall is_byte (be_enc 4 (u32 t))) by apply be_enc_bytes.
    set (b := be_enc 4 (u32 t)) in *. assert (Hb : length b = 4%nat) by done.
    clearbody n b. subst h.
    exists (take (j - 2) b ++ drop (j - 2) n), 0%nat. split; [|split; [|split; [|lia]]].
    + rewrite app_length, take_length, drop_length. lia.
    + apply Forall_app. split; [by apply Forall_take|by apply Forall_drop].
    + f_equal. rewrite app_nil_r.
      destruct j as [|[|j]]; cbn [take app drop Nat.sub]; [done|done|].
      do 2 f_equal. rewrite Nat.sub_0_r. rewrite <- app_assoc. f_equal.
      by rewrite drop_app_le by lia.
  - rewrite take_app_ge by lia. rewrite Hw, replay_app.
    rewrite replay_wsets by (left; done).
    rewrite img_enc, splice_header by done.
    change (drop 6 ([1; 1] ++ be_enc 4 (Z.of_nat (length E)) ++ recs E)) with (recs E).
    rewrite wsets_take, replay_wsets; [|right; rewrite !app_length, Hh, ?recs_length; cbn [length delta_magic]; lia].
    exists (be_enc 4 (u32 t)), (j - 6)%nat. split; [done|]. split; [apply be_enc_bytes|].
    split; [|lia].
    set (d := delta_magic ++ _).
    replace (14 + 18 * length E)%nat with (length d).
    + rewrite splice_end. unfold d, h. by rewrite <- !app_assoc.
    + unfold d. rewrite !app_length, recs_length, Hh. done.
Qed.

(** ** Recovery after a crash *)

Lemma recs_byte E : Forall ent_typed E -> Forall is_byte (recs E).
Proof. intros. by apply Forall_concat, recs_bytes. Qed.

Lemma torn_open csz f E F c m : usable f -> f_pos f = 0%nat -> (0 < csz)%nat ->
  length c = 4%nat -> Forall is_byte c ->
  f_data f = delta_magic ++ [1; 1] ++ c ++ recs E ++ take m (recs F) ->
  Forall ent_typed E -> Forall ent_typed F -> Z.of_nat (length E + length F) < 2 ^ 32 ->
  exists k f1 f' t, (k <= length F)%nat /\ ((18 * length F <= m)%nat -> k = length F) /\
    usable f1 /\ f_data f1 = img 0 (E ++ take k F) /\ d_open f1 = (f', Ret t) /\
    d_open_maybe_recover csz f = (f', Ret t).
Proof.
  intros Hu Hpos Hcsz Hc Hcb Hd HE HF Hl.
  destruct (take_recs m F) as (k & tail & Etake & Ht & Hk & Hall).
  assert (Hd' : f_data f = delta_magic ++ [1; 1] ++ c ++ recs (E ++ take k F) ++ tail).
  { rewrite Hd, Etake, recs_app. by rewrite <- !app_assoc. }
  exists k.
  destruct (open_locked csz f (img 0 (E ++ take k F)) (E ++ take k F) 1) as (f1 & f' & t & H1 & H2 & H3 & H4);
    try done.
  - by rewrite Hd.
  - rewrite Hd. apply Forall_app. split; [by repeat (apply Forall_cons; split; [done|])|].
    apply Forall_app. split; [by repeat (apply Forall_cons; split; [done|])|].
    apply Forall_app. split; [done|]. apply Forall_app. split; [by apply recs_byte|].
    by apply Forall_take, recs_byte.
  - rewrite Hd, !app_length, take_length, !recs_length, Hc. cbn [length delta_magic]. lia.
  - rewrite Hd'. by apply torn_recovers.
  - apply Forall_app. split; [done|]. by apply Forall_take.
  - rewrite app_length, take_length. lia.
  - exists f1, f', t. split; [done|]. split; [intros; by apply Hall|]. done.
Qed.

(** A prefix of what a flush writes holds each pair's last op or nothing of it. *)
Lemma latest_prefix h E s sh k u i : dinv h E s ->
  latest (take k (visit sh (ds_new s))) u i = None \/
  latest (take k (visit sh (ds_new s))) u i = last_add (unflushed h) u i.
Proof.
  intros I. set (F := visit sh (ds_new s)).
  destruct (latest (take k F) u i) as [o|] eqn:El; [|by left]. right.
  rewrite <- (di_unf _ _ _ I).
  assert (EF : of_user u F = default [] (ds_new s !! u)) by apply of_user_visit.
  rewrite <- EF, <- (take_drop k F), of_user_app, flast_app.
  assert (Hn : NoDup (map id_item (of_user u F))).
  { rewrite EF. destruct (ds_new s !! u) as [l|] eqn:En; cbn; [|constructor].
    by apply (di_new _ _ _ I u l). }
  rewrite <- (take_drop k F), of_user_app, map_app in Hn. apply NoDup_app in Hn as (_ & Hn & _).
  assert (Hd : flast (of_user u (drop k F)) i = None).
  { apply flast_none, Hn. unfold latest, flast in El. apply find_delta_in in El.
    apply elem_of_list_fmap. exists (ItemDelta i o). split; [done|].
    apply elem_of_reverse. unfold reverse. by rewrite <- rev_alt. }
  by rewrite Hd.
Qed.

Lemma inv_durable_get h E s u i : dinv h E s -> unflushed h = [] -> d_get s u i = last_add h u i.
Proof.
  intros I Hu. rewrite (inv_get h E s u i I), Hu. cbn.
  rewrite (durable_unflushed h) at 2. by rewrite Hu, app_nil_r.
Qed.

(** What is known of a storage [t] opened after a crash: [all]: the flush had completed. *)
Definition after_crash (bsz : nat) (h : list devent) (all : Prop) (t : dstore) : Prop :=
  exists ops, session bsz (map op_event ops ++ [EvFlush]) t /\
    f_data (ds_file t) = delta_image 1 (map op_bytes ops) /\
    (forall x, x ∈ ops -> op_event x ∈ h) /\ (length ops <= length h)%nat /\
    (forall u i, d_get t u i = last_add (durable h) u i \/ d_get t u i = last_add h u i) /\
    (all -> forall u i, d_get t u i = last_add h u i).

Lemma crash_result bsz h E s sh k f1 f' t : dinv h E s -> Z.of_nat (length h) < 2 ^ 32 ->
  usable f1 -> f_data f1 = img 0 (E ++ take k (visit sh (ds_new s))) -> d_open f1 = (f', Ret t) ->
  after_crash bsz h (k = length (visit sh (ds_new s))) t.
Proof.
  intros I Hl Hu Hd Ho. set (F := visit sh (ds_new s)) in *.
  set (ops := map ent_op (E ++ take k F)).
  assert (Ht : Forall ent_typed (E ++ take k F)).
  { apply Forall_app. split; [apply I|]. by apply Forall_take, (visit_typed h E s sh). }
  assert (Hd' : f_data f1 = delta_image 0 (map op_bytes ops)) by (unfold ops; by rewrite ent_op_bytes).
  assert (Hty : Forall op_typed ops) by (by apply ent_op_typed).
  assert (Hlen : Z.of_nat (length ops) < 2 ^ 32).
  { unfold ops. rewrite map_length, app_length, take_length.
    pose proof (di_total _ _ _ I). pose proof (di_bound _ _ _ I).
    assert (length F = length (pend (ds_new s))) by apply visit_length. lia. }
  destruct (image_inv f1 f' t ops Hu Hty Hd' Hlen Ho) as [It Hft].
  exists ops. split; [by eapply session_image|]. split; [by rewrite (di_data _ _ _ It), op_ent_rec|].
  split.
  { intros x Hx. unfold ops in Hx. apply elem_of_list_fmap in Hx as ([u d] & -> & Hx).
    apply elem_of_app in Hx as [Hx | Hx]; [by apply (di_src _ _ _ I _ Hx)|].
    apply elem_of_take in Hx as (n & Hx%elem_of_list_lookup_2 & _).
    apply elem_of_visit in Hx as (l & Hl1 & Hl2). by apply (di_nsrc _ _ _ I u l). }
  split.
  { unfold ops. rewrite map_length, app_length, take_length.
    pose proof (di_total _ _ _ I). pose proof (di_bound _ _ _ I).
    assert (length F = length (pend (ds_new s))) by apply visit_length. lia. }
  assert (Hget : forall u i, d_get t u i =
    match latest (take k F) u i with Some o => Some o | None => last_add (durable h) u i end).
  { intros u i. rewrite (inv_durable_get _ _ _ u i It) by apply unflushed_flush.
    rewrite last_add_app. cbn [last_add]. rewrite <- latest_ops. unfold ops. rewrite ent_op_ent.
    by rewrite latest_app, (di_dur _ _ _ I). }
  split.
  - intros u i. rewrite Hget, (last_add_split h u i).
    destruct (latest_prefix h E s sh k u i I) as [H | H]; fold F in H; rewrite H; [by left|].
    destruct (last_add (unflushed h) u i); [by right|by left].
  - intros -> u i. rewrite Hget, (last_add_split h u i). rewrite take_ge by done.
    unfold latest, F. rewrite of_user_visit, (di_unf _ _ _ I). done.
Qed.

Lemma written_flush h E s sh : dinv h E s ->
  written_by (ds_file s) (flushed_file (ds_total s) (visit sh (ds_new s)) (ds_file s)) =
  wsets 8 ([1; 1] ++ be_enc 4 (u32 (ds_total s))) ++ wsets (14 + 18 * length E) (recs (visit sh (ds_new s))).
Proof.
  intros I. unfold written_by. rewrite (flushed_log _ _ _ E) by apply I. by rewrite drop_app_alt.
Qed.

(** Dying during Flush. *)
Lemma crash_flush bsz csz h E s sh j f : dinv h E s -> Z.of_nat (length h) < 2 ^ 32 -> (0 < csz)%nat ->
  usable f -> f_pos f = 0%nat ->
  f_data f = crash_image (ds_file s)
    (flushed_file (ds_total s) (visit sh (ds_new s)) (ds_file s)) j ->
  exists f' t, d_open_maybe_recover csz f = (f', Ret t) /\
    after_crash bsz h ((6 + 18 * length (visit sh (ds_new s)) <= j)%nat) t.
Proof.
  intros I Hl Hcsz Hu Hpos Hd. unfold crash_image in Hd. rewrite (written_flush h E) in Hd by done.
  destruct (torn_flush E (visit sh (ds_new s)) (ds_total s) (f_data (ds_file s)) j (di_data _ _ _ I))
    as (c & m & Hc & Hcb & Himg & Hall & _).
  rewrite Himg in Hd.
  destruct (torn_open csz f E (visit sh (ds_new s)) c m) as (k & f1 & f' & t & Hk & Hk' & Hu1 & Hd1 & Ho & Hr);
    try done.
  { apply I. } { by apply (visit_typed h E). }
  { pose proof (di_total _ _ _ I). pose proof (di_bound _ _ _ I). rewrite visit_length. lia. }
  exists f', t. split; [done|].
  destruct (crash_result bsz h E s sh k f1 f' t I Hl Hu1 Hd1 Ho) as (ops & ? & ? & ? & ? & ? & Ha).
  exists ops. split; [done|]. split; [done|]. split; [done|]. split; [done|]. split; [done|].
  intros Hj. apply Ha. auto.
Qed.

(** The lock byte during a flush. *)
Lemma flush_lock_byte h E s sh j : dinv h E s ->
  crash_image (ds_file s) (flushed_file (ds_total s) (visit sh (ds_new s)) (ds_file s)) j !! 9%nat = Some 1.
Proof.
  intros I. unfold crash_image. rewrite (written_flush h E) by done.
  destruct (torn_flush E (visit sh (ds_new s)) (ds_total s) (f_data (ds_file s)) j (di_data _ _ _ I))
    as (c & m & Hc & Hcb & Himg & _).
  by rewrite Himg.
Qed.

(** What a call writes. *)
Lemma call_image bsz h E s c s' : dinv h E s -> Z.of_nat (length h) < 2 ^ 32 ->
  d_call bsz c s = (s', Ret tt) ->
  exists sh F, (match c with DAdd _ _ _ => F = [] | DFlush sh' => sh = sh' /\ F = visit sh (ds_new s) end) /\
    (forall j, match c with
     | DAdd _ _ _ => crash_image (ds_file s) (ds_file s') j = f_data (ds_file s)
     | DFlush _ => ds_file s' = flushed_file (ds_total s) F (ds_file s)
     end).
Proof.
  intros I Hl Hc. destruct c as [op u i|sh]; cbn [d_call] in Hc.
  - injection Hc as <-. exists (Shuffle _ (fun l => l) (fun l => reflexivity l)), []. split; [done|]. intros j.
    assert (ds_file (d_add op u i s) = ds_file s) as ->.
    { unfold d_add. by destruct (replace_delta i op _). }
    unfold crash_image, written_by. by rewrite drop_all, take_nil.
  - exists sh, (visit sh (ds_new s)). split; [done|]. intros _.
    destruct (flush_inv bsz sh h E s I Hl) as (s1 & H1 & _ & Hf & _). rewrite H1 in Hc. by injection Hc as <-.
Qed.

Lemma crash_nothing bsz csz h E s f : dinv h E s -> Z.of_nat (length h) < 2 ^ 32 -> (0 < csz)%nat ->
  usable f -> f_pos f = 0%nat -> f_data f = f_data (ds_file s) ->
  exists f' t ops, d_open_maybe_recover csz f = (f', Ret t) /\ session bsz (map op_event ops ++ [EvFlush]) t /\
    f_data (ds_file t) = delta_image 1 (map op_bytes ops) /\ (forall x, x ∈ ops -> op_event x ∈ h) /\
    (length ops <= length h)%nat /\ forall u i, d_get t u i = last_add (durable h) u i.
Proof.
  intros I Hl Hcsz Hu Hp Hd.
  destruct (torn_open csz f E [] (be_enc 4 (Z.of_nat (length E))) 0) as (k & f1 & f' & t & Hk & _ & Hu1 & Hd1 & Ho & Hr);
    try done.
  { apply be_enc_bytes. }
  { rewrite Hd, (di_data _ _ _ I), img_enc. by rewrite app_nil_r. }
  { apply I. }
  { pose proof (di_total _ _ _ I). pose proof (di_bound _ _ _ I). cbn [length]. lia. }
  rewrite take_nil, app_nil_r in Hd1.
  assert (Hd' : f_data f1 = delta_image 0 (map op_bytes (map ent_op E))) by (by rewrite ent_op_bytes).
  assert (Hlen : Z.of_nat (length (map ent_op E)) < 2 ^ 32).
  { pose proof (di_total _ _ _ I). pose proof (di_bound _ _ _ I). rewrite map_length. lia. }
  assert (Hty : Forall op_typed (map ent_op E)) by (apply ent_op_typed, I).
  destruct (image_inv f1 f' t _ Hu1 Hty Hd' Hlen Ho) as [It Hft].
  exists f', t, (map ent_op E). split; [done|]. split; [by eapply session_image|].
  split; [by rewrite (di_data _ _ _ It), op_ent_rec|].
  split.
  { intros x Hx. apply elem_of_list_fmap in Hx as ([u d] & -> & Hx). by apply (di_src _ _ _ I _ Hx). }
  split.
  { pose proof (di_total _ _ _ I). pose proof (di_bound _ _ _ I). rewrite map_length. lia. }
  intros u i. rewrite (inv_durable_get _ _ _ u i It) by apply unflushed_flush.
  rewrite last_add_app. cbn [last_add]. rewrite <- latest_ops, ent_op_ent. apply I.
Qed.

(** Dying in Close, before its last write. *)
Lemma crash_close bsz csz h E s sh s' j f : dinv h E s -> Z.of_nat (length h) < 2 ^ 32 -> (0 < csz)%nat ->
  d_close bsz sh s = (s', Ret tt) -> (j < length (written_by (ds_file s) (ds_file s')))%nat ->
  usable f -> f_pos f = 0%nat -> f_data f = crash_image (ds_file s) (ds_file s') j ->
  exists f' t, d_open_maybe_recover csz f = (f', Ret t) /\
    after_crash bsz h ((6 + 18 * length (visit sh (ds_new s)) <= j)%nat) t.
Proof.
  intros I Hl Hcsz Hc Hj Hu Hp Hd.
  destruct (close_inv bsz sh h E s I Hl) as (s1 & Hc1 & _ & _ & Hlog). rewrite Hc in Hc1. injection Hc1 as <-.
  set (g := flushed_file (ds_total s) (visit sh (ds_new s)) (ds_file s)) in *.
  assert (Hg : exists l, f_log g = f_log (ds_file s) ++ l).
  { exists (written_by (ds_file s) g). unfold g. rewrite (written_flush h E) by done. apply flushed_log, I. }
  assert (Hw : written_by (ds_file s) (ds_file s') = written_by (ds_file s) g ++ [WSet 9 0]).
  { destruct Hg as [l Hg]. unfold written_by. rewrite Hlog, Hg, <- app_assoc. by rewrite !drop_app_alt. }
  rewrite Hw, app_length in Hj. cbn [length] in Hj.
  assert (Hd' : f_data f = crash_image (ds_file s) g j).
  { rewrite Hd. unfold crash_image. rewrite Hw, take_app_le by lia. done. }
  by apply (crash_flush bsz csz h E s sh j f I Hl Hcsz Hu Hp Hd').
Qed.
