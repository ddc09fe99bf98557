(** The invariant of delta sessions. *)
From Verif Require Import Base GoIO Lock Delta SpecFile SpecLock SpecCrash SpecDelta DeltaSession GoIOFacts
  CodecFacts LockFacts DeltaFacts DeltaRecoverFacts DeltaStoreFacts.

(** ** Histories *)

Lemma last_add_app a b u i : last_add (a ++ b) u i =
  match last_add b u i with Some o => Some o | None => last_add a u i end.
Proof.
  induction a as [|[op v j|] a IH]; cbn [app last_add].
  - by destruct (last_add b u i).
  - rewrite IH. by destruct (last_add b u i).
  - done.
Qed.

Lemma durable_flush h : durable (h ++ [EvFlush]) = h ++ [EvFlush].
Proof.
  induction h as [|e h IH]; [done|]. cbn [app durable]. 
  rewrite (proj2 (existsb_exists _ _)), IH; [done|].
  exists EvFlush. split; [|done]. right. apply in_app_iff. right. by left.
Qed.

Lemma durable_add h op u i : durable (h ++ [EvAdd op u i]) = durable h.
Proof.
  induction h as [|e h IH]; [done|]. change ((e :: h) ++ [EvAdd op u i]) with (e :: (h ++ [EvAdd op u i])).
  cbn [durable]. rewrite IH.
  set (fl := fun e => match e with EvAdd _ _ _ => false | EvFlush => true end).
  assert (existsb fl (e :: (h ++ [EvAdd op u i])) = existsb fl (e :: h)) as ->; [|done].
  change (e :: (h ++ [EvAdd op u i])) with ((e :: h) ++ [EvAdd op u i]).
  rewrite existsb_app. cbn [existsb fl]. by rewrite !orb_false_r.
Qed.

Lemma durable_prefix h : exists t, h = durable h ++ t.
Proof.
  induction h as [|e h [t IH]]; [by exists []|]. cbn [durable]. destruct (existsb _ _).
  - exists t. cbn [app]. by rewrite <- IH.
  - by exists (e :: h).
Qed.

Lemma durable_unflushed h : h = durable h ++ unflushed h.
Proof.
  unfold unflushed. destruct (durable_prefix h) as [t E].
  assert (Ht : drop (length (durable h)) h = t) by (rewrite E at 2; by rewrite drop_app_alt).
  by rewrite Ht.
Qed.

Lemma unflushed_flush h : unflushed (h ++ [EvFlush]) = [].
Proof. unfold unflushed. rewrite durable_flush. by rewrite drop_all. Qed.

Lemma unflushed_add h op u i : unflushed (h ++ [EvAdd op u i]) = unflushed h ++ [EvAdd op u i].
Proof.
  unfold unflushed. rewrite durable_add. rewrite drop_app_le; [done|].
  destruct (durable_prefix h) as [t E]. rewrite E at 2. rewrite app_length. lia.
Qed.

Lemma last_add_split h u i : last_add h u i =
  match last_add (unflushed h) u i with Some o => Some o | None => last_add (durable h) u i end.
Proof. rewrite (durable_unflushed h) at 1. apply last_add_app. Qed.

Definition mentioned (u : Z) (h : list devent) : bool := existsb (mentions u) h.

Lemma mentioned_app u a b : mentioned u (a ++ b) = mentioned u a || mentioned u b.
Proof. apply existsb_app. Qed.

Lemma elem_of_users u h : u ∈ users_of h <-> mentioned u h = true.
Proof.
  unfold users_of, mentioned. rewrite elem_of_list_to_set, existsb_exists, elem_of_list_In, in_concat.
  split.
  - intros (l & Hl & Hu). apply in_map_iff in Hl as (e & <- & He).
    exists e. split; [done|]. destruct e; cbn in *; [|done]. destruct Hu as [-> | []]. apply Z.eqb_refl.
  - intros (e & He & Hm). destruct e as [op v i|]; [|done]. cbn in Hm. apply Z.eqb_eq in Hm. subst v.
    exists [u]. split; [|by left]. apply in_map_iff. by exists (EvAdd op u i).
Qed.

(** ** The invariant *)

Record dinv (h : list devent) (E : list entry) (s : dstore) : Prop := {
  di_ok : healthy (ds_file s);
  di_pos : can_seek (ds_file s) (f_pos (ds_file s));
  di_data : f_data (ds_file s) = img 1 E;
  di_cache : ds_cache s = group E;
  di_typed : Forall ent_typed E;
  di_new : forall u l, ds_new s !! u = Some l ->
    l <> [] /\ NoDup (map id_item l) /\ is_u64 u /\
    forall d, d ∈ l -> is_byte (id_op d) /\ is_u64 (id_item d);
  di_total : ds_total s = Z.of_nat (length E + length (pend (ds_new s)));
  di_bound : ds_total s <= Z.of_nat (length h);
  di_dur : forall u i, latest E u i = last_add (durable h) u i;
  di_unf : forall u i, flast (default [] (ds_new s !! u)) i = last_add (unflushed h) u i;
  di_nusers : forall u, is_Some (ds_new s !! u) <-> mentioned u (unflushed h) = true;
  di_ousers : forall u, of_user u E <> [] <-> mentioned u (durable h) = true;
  di_src : forall x, x ∈ E -> EvAdd (id_op (snd x)) (fst x) (id_item (snd x)) ∈ h;
  di_nsrc : forall u l d, ds_new s !! u = Some l -> d ∈ l -> EvAdd (id_op d) u (id_item d) ∈ h
}.

Lemma visit_typed h E s sh : dinv h E s -> Forall ent_typed (visit sh (ds_new s)).
Proof.
  intros I. apply Forall_forall. intros [u d] Hin. apply elem_of_visit in Hin as (l & Hl & Hd).
  destruct (di_new _ _ _ I u l Hl) as (_ & _ & Hu & Ht). destruct (Ht d Hd). done.
Qed.

Lemma visit_length sh m : length (visit sh m) = length (pend m).
Proof. by rewrite (visit_perm sh m). Qed.

Lemma inv_seek h E s p : dinv h E s -> (p <= 14)%nat -> can_seek (ds_file s) p.
Proof. intros I Hp. right. rewrite (di_data _ _ _ I), img_length. lia. Qed.

(** The file after a flush. *)
Lemma inv_flushed_any h E s sh : dinv h E s ->
  f_data (flushed_file (ds_total s) (visit sh (ds_new s)) (ds_file s)) = img 1 (E ++ visit sh (ds_new s)).
Proof.
  intros I. apply flushed_data_any; [apply I|]. by rewrite visit_length, (di_total _ _ _ I).
Qed.

Lemma inv_flushed h E s sh : dinv h E s -> Z.of_nat (length h) < 2 ^ 32 ->
  f_data (flushed_file (ds_total s) (visit sh (ds_new s)) (ds_file s)) = img 1 (E ++ visit sh (ds_new s)).
Proof. intros I _. by eapply inv_flushed_any. Qed.

Lemma flush_inv_any bsz sh h E s : dinv h E s ->
  exists s', d_flush bsz sh s = (s', Ret tt) /\ dinv (h ++ [EvFlush]) (E ++ visit sh (ds_new s)) s' /\
    ds_file s' = flushed_file (ds_total s) (visit sh (ds_new s)) (ds_file s) /\ ds_new s' = ∅.
Proof.
  intros I. pose proof (visit_typed h E s sh I) as Ht.
  rewrite d_flush_ok; [|apply I|by eapply inv_seek; [done|lia]|done].
  eexists. split; [done|]. split; [|done]. pose proof (inv_flushed_any h E s sh I) as Hd.
  split; cbn [ds_file ds_cache ds_new ds_total].
  - apply flushed_file_healthy, I.
  - right. unfold flushed_file at 1. rewrite fput_pos. cbn [fset_pos f_pos].
    unfold flushed_file. rewrite fput_data by (cbn; lia). cbn [fset_pos f_pos f_data].
    rewrite splice_end, app_length. lia.
  - done.
  - rewrite (di_cache _ _ _ I). apply addto_group.
  - apply Forall_app. split; [apply I|done].
  - intros u l. by rewrite lookup_empty.
  - rewrite (di_total _ _ _ I), app_length, visit_length.
    change (length (pend ∅)) with 0%nat. lia.
  - rewrite app_length. pose proof (di_bound _ _ _ I). cbn. lia.
  - intros u i. rewrite durable_flush, latest_app, last_add_app. cbn [last_add].
    unfold latest at 1. rewrite of_user_visit, (di_unf _ _ _ I), (di_dur _ _ _ I).
    symmetry. apply last_add_split.
  - intros u i. rewrite unflushed_flush, lookup_empty. done.
  - intros u. rewrite unflushed_flush, lookup_empty. split; [by intros [? ?]|done].
  - intros u. rewrite durable_flush, mentioned_app, of_user_app, of_user_visit.
    cbn [mentioned existsb mentions orb]. rewrite orb_false_r.
    rewrite (durable_unflushed h), mentioned_app, orb_true_iff, <- (di_ousers _ _ _ I), <- (di_nusers _ _ _ I).
    destruct (ds_new s !! u) as [l|] eqn:En; cbn [default].
    + destruct (di_new _ _ _ I u l En) as (Hne & _).
      split; [intros _; right; eauto|]. intros _ Happ. apply app_eq_nil in Happ as [_ ?]. done.
    + rewrite app_nil_r. split; [by left|]. intros [? | [? ?]]; done.
  - intros [u d] Hin. apply elem_of_app. left. apply elem_of_app in Hin as [Hin | Hin].
    + by apply (di_src _ _ _ I).
    + apply elem_of_visit in Hin as (l & Hl' & Hd'). by apply (di_nsrc _ _ _ I u l).
  - intros u l d. by rewrite lookup_empty.
Qed.

Lemma flush_inv bsz sh h E s : dinv h E s -> Z.of_nat (length h) < 2 ^ 32 ->
  exists s', d_flush bsz sh s = (s', Ret tt) /\ dinv (h ++ [EvFlush]) (E ++ visit sh (ds_new s)) s' /\
    ds_file s' = flushed_file (ds_total s) (visit sh (ds_new s)) (ds_file s) /\ ds_new s' = ∅.
Proof. intros I _. by apply flush_inv_any. Qed.

Lemma add_inv op u i h E s : dinv h E s -> is_byte op -> is_u64 u -> is_u64 i ->
  dinv (h ++ [EvAdd op u i]) E (d_add op u i s).
Proof.
  intros I Hop Hu Hi.
  set (l := default [] (ds_new s !! u)).
  assert (Hlok : NoDup (map id_item l) /\ forall d, d ∈ l -> is_byte (id_op d) /\ is_u64 (id_item d)).
  { unfold l. destruct (ds_new s !! u) as [k|] eqn:Ek; cbn.
    - destruct (di_new _ _ _ I u k Ek) as (_ & ? & _ & ?). done.
    - split; [constructor|]. intros d Hd. inversion Hd. }
  destruct Hlok as [Hnd Htl].
  (* the new list of the user *)
  assert (Hl' : exists l' total' unf', d_add op u i s =
      DStore (ds_cache s) (<[u := l']> (ds_new s)) total' unf' (ds_file s) /\
      l' <> [] /\ NoDup (map id_item l') /\ (forall d, d ∈ l' -> is_byte (id_op d) /\ is_u64 (id_item d)) /\
      (forall j, flast l' j = if i =? j then Some op else flast l j) /\
      (forall d, d ∈ l' -> d = ItemDelta i op \/ d ∈ l) /\
      total' = Z.of_nat (length E + length (pend (<[u := l']> (ds_new s)))) /\
      total' <= ds_total s + 1).
  { unfold d_add. fold l. destruct (replace_delta i op l) as [l'|] eqn:Er.
    - destruct (replace_delta_some i op l l' Er) as (Hm & Hf & Hin).
      exists l', (ds_total s), (ds_unflushed s). split; [done|].
      split; [intros ->; cbn in Hm; destruct l; [done|discriminate]|].
      split; [by rewrite Hm|]. split.
      { intros d Hd. destruct (Hin d Hd) as [-> | Hd']; [done|auto]. }
      split; [intros; by apply Hf|]. split; [done|].
      split; [|lia].
      destruct (ds_new s !! u) as [k|] eqn:Ek; [|done]. cbn in l.
      rewrite (di_total _ _ _ I), (pend_lookup _ _ _ Ek), pend_insert, !app_length, !map_length.
      apply (f_equal length) in Hm. rewrite !map_length in Hm. unfold l in Hm. lia.
    - apply replace_delta_none in Er.
      exists (l ++ [ItemDelta i op]), (ds_total s + 1), (ds_unflushed s + 1). split; [done|].
      split; [by destruct l|]. split.
      { rewrite map_app. apply NoDup_app. split; [done|]. split.
        - intros x Hx. cbn. rewrite elem_of_list_singleton. intros ->. done.
        - apply NoDup_singleton. }
      split.
      { intros d Hd. apply elem_of_app in Hd as [Hd | Hd]; [auto|].
        apply elem_of_list_singleton in Hd as ->. done. }
      split.
      { intros j. rewrite flast_app, flast_one. cbn. by destruct (i =? j). }
      split.
      { intros d Hd. apply elem_of_app in Hd as [Hd | Hd]; [by right|].
        apply elem_of_list_singleton in Hd. by left. }
      split; [|lia].
      rewrite (di_total _ _ _ I), pend_insert, app_length, !map_length, app_length. cbn [length].
      unfold l. destruct (ds_new s !! u) as [k|] eqn:Ek; cbn [default length id].
      + rewrite (pend_lookup _ _ _ Ek), !app_length, !map_length. cbn [id]. lia.
      + rewrite (pend_delete_none _ _ Ek). lia. }
  destruct Hl' as (l' & total' & unf' & -> & Hne & Hnd' & Ht' & Hf & Hin & Htot & Hb).
  split; cbn [ds_file ds_cache ds_new ds_total]; try (apply I; fail).
  - intros v k. destruct (decide (u = v)) as [<- | Huv].
    + rewrite lookup_insert. intros [= <-]. done.
    + rewrite lookup_insert_ne by done. apply I.
  - done.
  - pose proof (di_bound _ _ _ I). rewrite app_length. cbn. lia.
  - intros v j. rewrite durable_add. apply I.
  - intros v j. rewrite unflushed_add, last_add_app. cbn [last_add].
    destruct (decide (u = v)) as [<- | Huv].
    + rewrite lookup_insert, Z.eqb_refl. cbn [default andb]. rewrite Hf.
      destruct (i =? j); [done|]. apply I.
    + rewrite lookup_insert_ne by done. rewrite (proj2 (Z.eqb_neq u v)) by done. cbn [andb]. apply I.
  - intros v. rewrite unflushed_add, mentioned_app, orb_true_iff. unfold mentioned at 2.
    cbn [existsb mentions]. rewrite orb_false_r.
    destruct (decide (u = v)) as [<- | Huv].
    + rewrite lookup_insert, Z.eqb_refl. split; [by right|eauto].
    + rewrite lookup_insert_ne by done. rewrite (proj2 (Z.eqb_neq u v)) by done.
      rewrite (di_nusers _ _ _ I). split; [by left|by intros [?|?]].
  - intros v. rewrite durable_add. apply I.
  - intros x Hx. apply elem_of_app. left. by apply (di_src _ _ _ I).
  - intros v k d. destruct (decide (u = v)) as [<- | Huv].
    + rewrite lookup_insert. intros [= <-] Hd. apply elem_of_app.
      destruct (Hin d Hd) as [-> | Hd']; [right; left|]. left.
      unfold l in Hd'. destruct (ds_new s !! u) as [k|] eqn:Ek; [|inversion Hd'].
      by apply (di_nsrc _ _ _ I u k).
    + rewrite lookup_insert_ne by done. intros Hk Hd. apply elem_of_app. left. by apply (di_nsrc _ _ _ I v k).
Qed.

(** A storage just opened on the entries [E]. *)
Lemma opened_inv h E s : healthy (ds_file s) -> can_seek (ds_file s) (f_pos (ds_file s)) ->
  f_data (ds_file s) = img 1 E -> ds_cache s = group E -> ds_new s = ∅ ->
  ds_total s = Z.of_nat (length E) -> Forall ent_typed E -> Z.of_nat (length E) <= Z.of_nat (length h) ->
  unflushed h = [] ->
  (forall u i, latest E u i = last_add (durable h) u i) ->
  (forall u, of_user u E <> [] <-> mentioned u (durable h) = true) ->
  (forall x, x ∈ E -> EvAdd (id_op (snd x)) (fst x) (id_item (snd x)) ∈ h) ->
  dinv h E s.
Proof.
  intros ? ? ? ? Hn Ht ? ? Hu ? ? ?. split; try done.
  - intros u l. by rewrite Hn, lookup_empty.
  - rewrite Ht, Hn. change (length (pend ∅)) with 0%nat. lia.
  - lia.
  - intros u i. by rewrite Hn, Hu, lookup_empty.
  - intros u. rewrite Hn, Hu, lookup_empty. split; [by intros [? ?]|done].
  - intros u l d. by rewrite Hn, lookup_empty.
Qed.

Definition op_ent (x : Z * Z * Z) : entry := let '(op, u, i) := x in (u, ItemDelta i op).

Lemma op_ent_rec ops : map op_bytes ops = map rec_of (map op_ent ops).
Proof. rewrite map_map. apply map_ext. by intros [[op u] i]. Qed.

Lemma op_ent_typed ops : Forall op_typed ops -> Forall ent_typed (map op_ent ops).
Proof. intros H. apply Forall_map. eapply Forall_impl; [done|]. intros [[op u] i] (? & ? & ?). done. Qed.

Lemma latest_ops ops u i : latest (map op_ent ops) u i = last_add (map op_event ops) u i.
Proof.
  induction ops as [|[[op v] j] ops IH]; [done|].
  change (map op_ent ((op, v, j) :: ops)) with ([(v, ItemDelta j op)] ++ map op_ent ops).
  change (map op_event ((op, v, j) :: ops)) with ([EvAdd op v j] ++ map op_event ops).
  rewrite latest_app, last_add_app, IH. destruct (last_add _ u i); [done|].
  unfold latest. rewrite of_user_cons. cbn [fst snd of_user filter map last_add].
  destruct (decide (v = u)) as [-> | Hne].
  - rewrite Z.eqb_refl. done.
  - rewrite (proj2 (Z.eqb_neq v u)) by done. done.
Qed.

Lemma users_ops ops u : of_user u (map op_ent ops) <> [] <-> mentioned u (map op_event ops) = true.
Proof.
  induction ops as [|[[op v] j] ops IH]; [done|].
  cbn [map op_ent op_event]. rewrite of_user_cons. cbn [fst snd]. unfold mentioned in *. cbn [existsb mentions].
  rewrite orb_true_iff, <- IH. destruct (decide (v = u)) as [-> | Hne].
  - rewrite Z.eqb_refl. split; [by left|]. done.
  - rewrite (proj2 (Z.eqb_neq v u)) by done. cbn [app]. split; [by right|]. by intros [? | ?].
Qed.

Lemma ops_durable ops : durable (map op_event ops ++ [EvFlush]) = map op_event ops ++ [EvFlush].
Proof. apply durable_flush. Qed.

Lemma image_inv f f' s ops : usable f -> Forall op_typed ops ->
  f_data f = delta_image 0 (map op_bytes ops) -> Z.of_nat (length ops) < 2 ^ 32 ->
  d_open f = (f', Ret s) -> dinv (map op_event ops ++ [EvFlush]) (map op_ent ops) s /\ ds_file s = f'.
Proof.
  intros (Hc & He & Hp) Ht Hd Hl Ho.
  destruct (d_open_image f (map op_ent ops)) as (p & Hp' & Ho'); try done.
  { by apply op_ent_typed. } { by rewrite map_length. } { rewrite Hd, op_ent_rec. done. }
  cbn zeta in Ho'. rewrite Ho in Ho'. injection Ho' as Hf' Hs'. rewrite Hs'. cbn [ds_file]. split; [|done].
  apply opened_inv; cbn [ds_file ds_cache ds_new ds_total f_pos f_data]; try done.
  - right. cbn [f_data f_pos ds_file]. rewrite img_length. rewrite Hd in Hp'.
    rewrite op_ent_rec in Hp'. change (delta_image 0 (map rec_of (map op_ent ops))) with (img 0 (map op_ent ops)) in Hp'.
    rewrite img_length in Hp'. lia.
  - by apply op_ent_typed.
  - rewrite app_length, !map_length. cbn. lia.
  - apply unflushed_flush.
  - intros u i. rewrite ops_durable, last_add_app. cbn [last_add]. apply latest_ops.
  - intros u. rewrite ops_durable, mentioned_app. unfold mentioned at 2. cbn [existsb mentions].
    rewrite orb_false_r. apply users_ops.
  - intros x Hx. apply elem_of_app. left. apply elem_of_list_fmap in Hx as ([[op u] i] & -> & Hx).
    apply elem_of_list_fmap. by exists (op, u, i).
Qed.

Lemma close_inv bsz sh h E s : dinv h E s -> Z.of_nat (length h) < 2 ^ 32 ->
  exists s', d_close bsz sh s = (s', Ret tt) /\
    f_data (ds_file s') = img 0 (E ++ visit sh (ds_new s)) /\ f_closed (ds_file s') = true /\
    f_log (ds_file s') =
      f_log (flushed_file (ds_total s) (visit sh (ds_new s)) (ds_file s)) ++ [WSet 9 0].
Proof.
  intros I Hl. destruct (flush_inv bsz sh h E s I Hl) as (s1 & H1 & I1 & Hf1 & _).
  unfold d_close, iobind, iomaperr. rewrite H1.
  unfold on_dfile at 1. unfold d_write_locked. change delta_locked_offset with (Z.of_nat 9).
  rewrite write_locked_ok; [|apply I1|apply I1|eapply inv_seek; [done|lia]].
  unfold on_dfile. cbn [ds_file].
  set (f2 := File _ _ _ _ _ _).
  assert (Hcl : fclose f2 = (File (f_kind f2) (f_data f2) (f_pos f2) true (f_env f2) (f_log f2), Ret tt)).
  { by apply fclose_healthy. }
  rewrite Hcl. eexists. split; [done|]. subst f2. cbn [ds_file f_data f_closed f_log]. rewrite (di_data _ _ _ I1), Hf1.
  split; [|done]. by rewrite !img_enc.
Qed.

(** The entries kept by a close. *)
Lemma reopen_inv bsz sh h E s s' f f' t : dinv h E s -> Z.of_nat (length (h ++ [EvFlush])) < 2 ^ 32 ->
  d_close bsz sh s = (s', Ret tt) -> usable f -> f_data f = f_data (ds_file s') ->
  d_open f = (f', Ret t) -> dinv (h ++ [EvFlush]) (E ++ visit sh (ds_new s)) t.
Proof.
  intros I Hl Hc (Hcl & He & Hp) Hd Ho. rewrite app_length in Hl. cbn in Hl.
  destruct (close_inv bsz sh h E s I) as (s1 & Hc1 & Hd1 & _); [lia|].
  rewrite Hc in Hc1. injection Hc1 as <-. rewrite Hd1 in Hd.
  destruct (flush_inv bsz sh h E s I) as (s2 & _ & I2 & _); [lia|].
  destruct (d_open_image f (E ++ visit sh (ds_new s))) as (p & Hp' & Ho'); try done.
  { apply I2. }
  { pose proof (di_total _ _ _ I). pose proof (di_bound _ _ _ I). rewrite app_length, visit_length. lia. }
  cbn zeta in Ho'. rewrite Ho in Ho'. injection Ho' as Hf' Hs'. rewrite Hs'.
  apply opened_inv; cbn [ds_file ds_cache ds_new ds_total f_pos f_data]; try done.
  - right. cbn [f_data f_pos ds_file]. rewrite img_length. rewrite Hd, img_length in Hp'. lia.
  - apply I2.
  - pose proof (di_total _ _ _ I2) as H1. pose proof (di_bound _ _ _ I2). rewrite H1 in *. lia.
  - apply unflushed_flush.
  - apply I2.
  - apply I2.
  - apply I2.
Qed.

Lemma call_inv bsz c h E s : dinv h E s -> Z.of_nat (length h) < 2 ^ 32 -> ev_typed (event_of c) ->
  exists s' E', d_call bsz c s = (s', Ret tt) /\ dinv (h ++ [event_of c]) E' s'.
Proof.
  intros I Hl Ht. destruct c as [op u i|sh]; cbn [d_call event_of] in *.
  - eexists _, E. split; [done|]. destruct Ht as (? & ? & ?). by apply add_inv.
  - destruct (flush_inv bsz sh h E s I Hl) as (s' & H & I' & _). eauto.
Qed.

Lemma session_inv bsz h s : session bsz h s -> Z.of_nat (length h) < 2 ^ 32 -> exists E, dinv h E s.
Proof.
  induction 1 as [f f' s (Hc & He & Hp) Hd Ho | f f' s ops Hu Ht Hd Ho | h s c s' _ IH Ht Hcall
                  | h s sh s' f f' t _ IH Hcl Hu Hd Ho]; intros Hl.
  - exists []. destruct (d_open_empty f) as (log & Ho'); [done|done|].
    cbn zeta in Ho'. rewrite Ho in Ho'. injection Ho' as -> ->.
    apply opened_inv; try done; [right; cbn; lia|]. intros x Hx. inversion Hx.
  - exists (map op_ent ops). eapply image_inv; try done.
    rewrite app_length, map_length in Hl. lia.
  - rewrite app_length in Hl. destruct IH as [E I]; [lia|].
    destruct (call_inv bsz c h E s I) as (s1 & E1 & H1 & I1); [lia|done|].
    rewrite Hcall in H1. injection H1 as <-. eauto.
  - destruct IH as [E I]; [rewrite app_length in Hl; lia|].
    eexists. by eapply reopen_inv.
Qed.

(** ** Get *)

Lemma inv_get h E s u i : dinv h E s ->
  d_get s u i = if mentioned u (unflushed h) then last_add (unflushed h) u i else last_add (durable h) u i.
Proof.
  intros I. unfold d_get. pose proof (di_nusers _ _ _ I u) as Hn. pose proof (di_unf _ _ _ I u i) as Hu.
  destruct (ds_new s !! u) as [l|] eqn:El.
  - destruct (mentioned u (unflushed h)); [done|]. by destruct Hn as [Hn _]; discriminate Hn; eauto.
  - destruct (mentioned u (unflushed h)).
    { destruct Hn as [_ Hn]. destruct (Hn eq_refl). done. }
    rewrite (di_cache _ _ _ I), group_lookup, <- (di_dur _ _ _ I). unfold latest.
    by destruct (of_user u E).
Qed.

Lemma not_mentioned_last u i h : mentioned u h = false -> last_add h u i = None.
Proof.
  induction h as [|[op v j|] h IH]; cbn; [done| |done].
  unfold mentioned. cbn. intros H. apply orb_false_iff in H as [Hv H].
  rewrite IH by done. by rewrite Hv.
Qed.

(** ** User count *)

Lemma inv_user_count h E s : dinv h E s -> d_user_count s = Z.of_nat (size (users_of h)).
Proof.
  intros I. unfold d_user_count.
  assert (Hu : users_of h = (dom (ds_new s) ∖ dom (ds_cache s)) ∪ dom (ds_cache s)).
  { apply set_eq. intros u. rewrite elem_of_users, (durable_unflushed h), mentioned_app, orb_true_iff.
    rewrite <- (di_ousers _ _ _ I), <- (di_nusers _ _ _ I), elem_of_union, elem_of_difference, !elem_of_dom.
    rewrite (di_cache _ _ _ I), group_lookup.
    destruct (of_user u E) as [|x l].
    - split.
      + intros [H | H]; [done|]. left. split; [done|]. by intros [? ?].
      + intros [[H _] | [? ?]]; [by right|done].
    - split; [intros _; right; eauto|]. intros _. by left. }
  rewrite Hu, size_union by set_solver.
  rewrite size_dom. rewrite Nat2Z.inj_add. f_equal.
  set (L := filter _ _).
  assert (Hd : dom (ds_new s) ∖ dom (ds_cache s) = list_to_set L).
  { apply set_eq. intros u. rewrite elem_of_difference, !elem_of_dom, elem_of_list_to_set.
    unfold L. rewrite elem_of_list_filter. rewrite <- eq_None_not_Some.
    rewrite elem_of_list_fmap. split.
    - intros [[l Hl] Hc]. split; [done|]. exists (u, l). split; [done|]. by apply elem_of_map_to_list.
    - intros (Hc & [v l] & -> & Hin). apply elem_of_map_to_list in Hin. split; [eauto|done]. }
  rewrite Hd, size_list_to_set; [done|]. apply NoDup_filter, NoDup_fst_map_to_list.
Qed.
