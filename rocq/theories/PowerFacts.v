(** What a power failure leaves of a delta file. *)
From Verif Require Import Base GoIO Lock Delta SpecFile SpecLock SpecCrash SpecDelta SpecPower DeltaSession GoIOFacts
  CodecFacts LockFacts DeltaFacts DeltaRecoverFacts DeltaStoreFacts DeltaHistFacts DeltaCrashFacts DeltaRecCrashFacts.

(** ** The writes of a storage that was opened with [n] records *)

Definition allowed (n M : nat) (o : wop) : Prop :=
  match o with
  | WSet off b => is_byte b /\ (off < M)%nat /\
      ((off = 8%nat /\ b = 1) \/ (off = 9%nat /\ b = 1) \/ (10 <= off < 14)%nat \/ (14 + 18 * n <= off)%nat)
  | WTrunc _ => False
  end.

Lemma allowed_mono n M M' o : (M <= M')%nat -> allowed n M o -> allowed n M' o.
Proof. intros H. destruct o; [|done]. cbn. intros (? & ? & ?). split; [done|]. split; [lia|done]. Qed.

Lemma set_lookup d off b i : (i < length d)%nat ->
  apply_wop d (WSet off b) !! i = if decide (i = off) then Some b else d !! i.
Proof.
  intros Hi. cbn [apply_wop]. rewrite splice_lookup. cbn [length].
  destruct (decide (i < off)%nat).
  - rewrite decide_False by lia. by rewrite lookup_app_l.
  - destruct (decide (i < off + 1)%nat).
    + rewrite decide_True by lia. by replace (i - off)%nat with 0%nat by lia.
    + by rewrite decide_False by lia.
Qed.

Lemma set_length d off b : length (apply_wop d (WSet off b)) = Nat.max (length d) (off + 1).
Proof. cbn [apply_wop]. by rewrite splice_length. Qed.

Lemma set_bytes d off b : is_byte b -> Forall is_byte d -> Forall is_byte (apply_wop d (WSet off b)).
Proof.
  intros Hb Hd. cbn [apply_wop]. unfold splice. rewrite !Forall_app. split; [|split].
  - apply Forall_take, Forall_app. split; [done|]. unfold zeros. apply Forall_replicate. unfold is_byte. lia.
  - by constructor.
  - by apply Forall_drop.
Qed.

Lemma replay_cons o l d : replay (o :: l) d = replay l (apply_wop d o).
Proof. done. Qed.

Lemma replay_bounds n M l : Forall (allowed n M) l -> forall d,
  (length d <= length (replay l d))%nat /\ (length (replay l d) <= Nat.max (length d) M)%nat.
Proof.
  induction 1 as [|o l Ho _ IH]; intros d; [cbn; lia|]. rewrite replay_cons.
  destruct o as [off b|]; [|done]. destruct Ho as (_ & Hm & _). destruct (IH (apply_wop d (WSet off b))) as [H1 H2].
  rewrite set_length in *. lia.
Qed.

Lemma replay_keeps n M l : Forall (allowed n M) l -> forall d i,
  (i < length d)%nat -> (i < 8 \/ 14 <= i < 14 + 18 * n)%nat -> replay l d !! i = d !! i.
Proof.
  induction 1 as [|o l Ho _ IH]; intros d i Hi Hr; [done|]. rewrite replay_cons.
  destruct o as [off b|]; [|done]. destruct Ho as (_ & _ & Ho).
  rewrite IH; [|rewrite set_length; lia|done]. rewrite set_lookup by done. rewrite decide_False by lia. done.
Qed.

Lemma replay_ones n M l : Forall (allowed n M) l -> forall d i, i = 8%nat \/ i = 9%nat ->
  d !! i = Some 1 -> replay l d !! i = Some 1.
Proof.
  induction 1 as [|o l Ho _ IH]; intros d i Hi Hd; [done|]. rewrite replay_cons.
  destruct o as [off b|]; [|done]. destruct Ho as (_ & _ & Ho).
  apply IH; [done|]. rewrite set_lookup by (by eapply lookup_lt_Some). destruct (decide (i = off)); [|done].
  f_equal. lia.
Qed.

Lemma replay_typed n M l : Forall (allowed n M) l -> forall d, Forall is_byte d -> Forall is_byte (replay l d).
Proof.
  induction 1 as [|o l Ho _ IH]; intros d Hd; [done|]. rewrite replay_cons.
  destruct o as [off b|]; [|done]. destruct Ho as (Hb & _). apply IH. by apply set_bytes.
Qed.

(** ** Runs *)

Record grows (f0 : file) (E0 : list entry) (h : list devent) (X : list entry) (l : list wop) (s : dstore) : Prop := {
  gr_inv : dinv h (E0 ++ X) s;
  gr_log : f_log (ds_file s) = f_log f0 ++ WSet 9 1 :: l;
  gr_allowed : Forall (allowed (length E0) (14 + 18 * length h)) l;
  gr_data : f_data (ds_file s) = replay (WSet 9 1 :: l) (f_data f0)
}.

Lemma grows_written f0 E0 h X l s : grows f0 E0 h X l s -> written_by f0 (ds_file s) = WSet 9 1 :: l.
Proof. intros G. unfold written_by. rewrite (gr_log _ _ _ _ _ _ G). by rewrite drop_app_alt. Qed.

Lemma wsets_allowed n M off bs : Forall is_byte bs -> (14 + 18 * n <= off)%nat -> (off + length bs <= M)%nat ->
  Forall (allowed n M) (wsets off bs).
Proof.
  intros Hb. revert off. induction Hb as [|b bs Hb _ IH]; intros off H1 H2; cbn [wsets length] in *; [done|].
  constructor; [|apply IH; lia]. split; [done|]. split; [lia|]. lia.
Qed.

Lemma header_allowed n M t : (14 <= M)%nat -> Forall (allowed n M) (wsets 8 ([1; 1] ++ be_enc 4 t)).
Proof.
  intros HM. pose proof (be_enc_bytes 4 t) as Hb. pose proof (be_enc_length 4 t) as Hl.
  destruct (be_enc 4 t) as [|a [|b [|c [|e [|? ?]]]]]; try done. cbn [app wsets].
  repeat (apply Forall_cons in Hb as [? Hb]).
  repeat (constructor; [split; [done|split; [lia|lia]]|]). done.
Qed.

Lemma flushed_replays t F f E : f_data f = img 1 E ->
  f_data (flushed_file t F f) =
  replay (wsets 8 ([1; 1] ++ be_enc 4 (u32 t)) ++ wsets (14 + 18 * length E) (recs F)) (f_data f).
Proof.
  intros Hd. rewrite replay_app. unfold flushed_file. rewrite fput_replay. cbn [fset_pos f_pos f_data].
  replace (length (f_data (hdr_file t f))) with (14 + 18 * length E)%nat.
  - f_equal. unfold hdr_file. by rewrite fput_replay.
  - rewrite (hdr_file_data t E f Hd), !app_length, be_enc_length, recs_length. cbn [length delta_magic]. lia.
Qed.

Lemma grows_open f0 f1 s ops : usable f0 -> Forall op_typed ops -> Z.of_nat (length ops) < 2 ^ 32 ->
  f_data f0 = delta_image 0 (map op_bytes ops) -> d_open f0 = (f1, Ret s) ->
  grows f0 (map op_ent ops) (map op_event ops ++ [EvFlush]) [] [] s.
Proof.
  intros Hu Ht Hl Hd Ho. destruct (image_inv f0 f1 s ops Hu Ht Hd Hl Ho) as [I Hf].
  destruct (d_open_image f0 (map op_ent ops)) as (p & _ & Ho'); try done.
  { by destruct Hu as (? & ? & _). } { by apply op_ent_typed. } { by rewrite map_length. }
  { by rewrite Hd, op_ent_rec. }
  cbn zeta in Ho'. rewrite Ho in Ho'. injection Ho' as Hf1 Hs.
  assert (Hi : img 1 (map op_ent ops) = replay [WSet 9 1] (f_data f0)).
  { rewrite Hd, op_ent_rec. fold (img 0 (map op_ent ops)). by rewrite !img_enc. }
  split.
  - by rewrite app_nil_r.
  - by rewrite Hs.
  - done.
  - rewrite Hs. cbn [ds_file f_data]. done.
Qed.

Lemma grows_call bsz f0 E0 h X l s c s' : grows f0 E0 h X l s -> Z.of_nat (length h) < 2 ^ 32 ->
  ev_typed (event_of c) -> d_call bsz c s = (s', Ret tt) ->
  exists X' l', grows f0 E0 (h ++ [event_of c]) X' l' s'.
Proof.
  intros [I Hlog Hal Hdat] Hl Ht Hc.
  assert (Hal' : Forall (allowed (length E0) (14 + 18 * length (h ++ [event_of c]))) l).
  { eapply Forall_impl; [exact Hal|]. intros o. apply allowed_mono. rewrite app_length. cbn. lia. }
  destruct c as [op u i|sh]; cbn [d_call event_of] in *.
  - injection Hc as <-. exists X, l. destruct Ht as (? & ? & ?). 
    assert (Hf : ds_file (d_add op u i s) = ds_file s) by (unfold d_add; by destruct (replace_delta _ _ _)).
    split; [by apply add_inv|by rewrite Hf|done|by rewrite Hf].
  - destruct (flush_inv bsz sh h _ s I Hl) as (s1 & H1 & I1 & Hf1 & _). rewrite Hc in H1. injection H1 as <-.
    exists (X ++ visit sh (ds_new s)).
    exists (l ++ wsets 8 ([1; 1] ++ be_enc 4 (u32 (ds_total s))) ++
      wsets (14 + 18 * length (E0 ++ X)) (recs (visit sh (ds_new s)))). split.
    + by rewrite app_assoc.
    + rewrite Hf1, (flushed_log _ _ _ (E0 ++ X)) by apply I. rewrite Hlog. by rewrite <- app_assoc.
    + rewrite !Forall_app. split; [done|]. split; [apply header_allowed; lia|].
      apply wsets_allowed; [by apply recs_byte, (visit_typed h (E0 ++ X))| |].
      * rewrite app_length. lia.
      * rewrite recs_length, visit_length. pose proof (di_total _ _ _ I). pose proof (di_bound _ _ _ I).
        rewrite (app_length h). cbn. lia.
    + rewrite Hf1, (flushed_replays _ _ _ (E0 ++ X)) by apply I. rewrite Hdat.
      rewrite app_comm_cons, (replay_app (WSet 9 1 :: l)). done.
Qed.

Lemma grows_calls bsz f0 E0 cs : forall h X l s s', grows f0 E0 h X l s -> Z.of_nat (length h + length cs) < 2 ^ 32 ->
  Forall (fun c => ev_typed (event_of c)) cs -> d_calls bsz cs s = (s', Ret tt) ->
  exists X' l', grows f0 E0 (h ++ map event_of cs) X' l' s'.
Proof.
  induction cs as [|c cs IH]; intros h X l s s' G Hl Ht Hc; cbn [d_calls map length] in *.
  - injection Hc as <-. exists X, l. by rewrite app_nil_r.
  - apply Forall_cons in Ht as [Htc Ht]. unfold iobind in Hc.
    destruct (d_call bsz c s) as [s1 [[]|e| |]] eqn:E1; try done.
    destruct (grows_call bsz f0 E0 h X l s c s1 G) as (X1 & l1 & G1); try done; [lia|].
    destruct (IH _ _ _ _ s' G1) as (X' & l' & G'); try done; [rewrite app_length; cbn; lia|].
    exists X', l'. by rewrite <- app_assoc in G'.
Qed.

(** ** The image *)

Lemma power_length B blocks len d log :
  length (power_image B blocks len d log) = length (replay (take len log) d).
Proof. unfold power_image. by rewrite map_length, seq_length. Qed.

Lemma power_lookup B blocks len d log i : (i < length (replay (take len log) d))%nat ->
  power_image B blocks len d log !! i = Some (default 0 (replay (take (blocks (i / B)%nat) log) d !! i)).
Proof.
  intros Hi. unfold power_image. rewrite list_lookup_fmap, lookup_seq_lt by done. done.
Qed.

Section image.
  Context (f0 : file) (E0 : list entry) (h : list devent) (X : list entry) (l : list wop) (s : dstore).
  Context (G : grows f0 E0 h X l s) (Hd0 : f_data f0 = img 0 E0) (Ht0 : Forall ent_typed E0).
  Context (B : nat) (blocks : nat -> nat) (len : nat) (HB : (14 <= B)%nat).
  Let d0 := img 0 E0.
  Let log := WSet 9 1 :: l.
  Let p := power_image B blocks len d0 log.
  Let n := length E0.

  Lemma log_allowed : Forall (allowed n (14 + 18 * length h)) log.
  Proof.
    constructor; [|apply G]. split; [done|]. split; [lia|]. right. by left.
  Qed.

  Lemma prefix_allowed j : Forall (allowed n (14 + 18 * length h)) (take j log).
  Proof. apply Forall_take, log_allowed. Qed.

  Lemma start_length : length d0 = (14 + 18 * n)%nat.
  Proof. apply img_length. Qed.

  Lemma power_size : (14 + 18 * n <= length p)%nat /\ (length p <= 14 + 18 * length h)%nat.
  Proof.
    unfold p. rewrite power_length. destruct (replay_bounds _ _ _ (prefix_allowed len) d0) as [H1 H2].
    rewrite start_length in *.
    assert (n <= length h)%nat; [|lia].
    pose proof (gr_inv _ _ _ _ _ _ G) as I. pose proof (di_total _ _ _ I). pose proof (di_bound _ _ _ I).
    rewrite app_length in *. unfold n. lia.
  Qed.

  Lemma power_bytes : Forall is_byte p.
  Proof.
    unfold p, power_image. apply Forall_map, Forall_forall. intros i _.
    pose proof (replay_typed _ _ _ (prefix_allowed (blocks (i / B)%nat)) d0) as H.
    assert (Hb : Forall is_byte d0) by (apply image_bytes; [unfold is_byte; lia|by apply recs_bytes]).
    specialize (H Hb). destruct (replay _ d0 !! i) as [b|] eqn:E; cbn; [|unfold is_byte; lia].
    rewrite Forall_forall in H. apply H. by eapply elem_of_list_lookup_2.
  Qed.

  Lemma power_old i : (i < 8 \/ 14 <= i < 14 + 18 * n)%nat -> p !! i = d0 !! i.
  Proof.
    intros Hi. destruct power_size as [H1 _]. pose proof start_length as H0.
    unfold p in *. rewrite power_length in H1. rewrite power_lookup by lia.
    rewrite (replay_keeps _ _ _ (prefix_allowed _)) by lia.
    destruct (lookup_lt_is_Some_2 d0 i) as [b Hb]; [lia|]. by rewrite Hb.
  Qed.

  Lemma block_0 i : (i < 14)%nat -> p !! i = replay (take (blocks 0%nat) log) d0 !! i.
  Proof.
    intros Hi. destruct power_size as [H1 _]. unfold p in *. rewrite power_length in H1. rewrite power_lookup by lia.
    rewrite Nat.div_small by lia.
    destruct (replay_bounds _ _ _ (prefix_allowed (blocks 0%nat)) d0) as [H2 _]. rewrite start_length in H2.
    destruct (lookup_lt_is_Some_2 (replay (take (blocks 0%nat) log) d0) i) as [b Hb]; [lia|]. by rewrite Hb.
  Qed.

  Lemma power_shape : exists hdr rest, p = delta_magic ++ hdr ++ recs E0 ++ rest /\ length hdr = 6%nat /\
    match blocks 0%nat with
    | O => hdr = [1; 0] ++ be_enc 4 (Z.of_nat n)
    | S _ => hdr !! 1%nat = Some 1
    end.
  Proof.
    destruct power_size as [H1 _]. pose proof start_length as H0.
    exists (take 6 (drop 8 p)), (drop (14 + 18 * n) p).
    assert (Hh : length (take 6 (drop 8 p)) = 6%nat) by (rewrite take_length, drop_length; lia).
    assert (Hd0' : d0 = delta_magic ++ ([1; 0] ++ be_enc 4 (Z.of_nat n)) ++ recs E0) by (unfold d0; by rewrite img_enc).
    assert (Hl6 : length ([1; 0] ++ be_enc 4 (Z.of_nat n)) = 6%nat) by (rewrite app_length, be_enc_length; done).
    split; [|split; [done|]].
    - rewrite <- (take_drop (14 + 18 * n) p) at 1.
      rewrite !app_assoc. f_equal. rewrite <- app_assoc.
      apply list_eq_same_length with (length (take (14 + 18 * n) p)); [|done|].
      { rewrite !app_length, Hh, recs_length, take_length. cbn [length delta_magic]. unfold n in *. lia. }
      intros i x y Hi Hx Hy. rewrite take_length in Hi. rewrite lookup_take in Hx by lia.
      destruct (decide (8 <= i < 14)%nat) as [Hm|Hm].
      + rewrite lookup_app_r in Hy by (cbn; lia). rewrite lookup_app_l in Hy by (rewrite Hh; cbn; lia).
        cbn [length delta_magic] in Hy. rewrite lookup_take in Hy by lia. rewrite lookup_drop in Hy.
        replace (8 + (i - 8))%nat with i in Hy by lia. congruence.
      + rewrite power_old in Hx by lia. rewrite Hd0' in Hx.
        destruct (decide (i < 8)%nat).
        * rewrite lookup_app_l in Hx by (cbn; lia). rewrite lookup_app_l in Hy by (cbn; lia). congruence.
        * rewrite lookup_app_r in Hx, Hy by (cbn; lia). cbn [length delta_magic] in *.
          rewrite lookup_app_r in Hx by lia. rewrite lookup_app_r in Hy by lia. rewrite Hl6 in Hx. rewrite Hh in Hy. congruence.
    - destruct (blocks 0%nat) as [|j] eqn:Ej.
      + apply list_eq_same_length with 6%nat; [done|done|].
        intros i x y Hi Hx Hy. rewrite lookup_take in Hx by lia. rewrite lookup_drop in Hx.
        rewrite block_0 in Hx by lia. rewrite Ej in Hx. change (replay (take 0 log) d0) with d0 in Hx.
        rewrite Hd0' in Hx. rewrite lookup_app_r in Hx by (cbn; lia). rewrite lookup_app_l in Hx by (rewrite Hl6; cbn; lia).
        cbn [length delta_magic] in Hx. replace (8 + i - 8)%nat with i in Hx by lia. congruence.
      + rewrite lookup_take by lia. rewrite lookup_drop. rewrite block_0 by lia. rewrite Ej.
        unfold log. cbn [take]. rewrite replay_cons.
        apply (replay_ones n (14 + 18 * length h)); [apply Forall_take, G|by right|].
        rewrite set_lookup by lia. by rewrite decide_True.
  Qed.
End image.

(** ** Opening what is left *)

Lemma opened_get E f u i : d_get (DStore (group E) ∅ (Z.of_nat (length E)) 0 f) u i = latest E u i.
Proof.
  unfold d_get. cbn [ds_new ds_cache]. rewrite lookup_empty, group_lookup. unfold latest, flast.
  by destruct (of_user u E).
Qed.

(** Bytes after the announced records are not looked at. *)
Lemma d_open_tail f E tail : healthy f -> Forall ent_typed E -> Z.of_nat (length E) < 2 ^ 32 ->
  f_data f = img 0 E ++ tail ->
  exists p, (p <= length (f_data f))%nat /\
  let f' := File (f_kind f) (img 1 E ++ tail) p false [] (f_log f ++ [WSet 9 1]) in
  d_open f = (f', Ret (DStore (group E) ∅ (Z.of_nat (length E)) 0 f')).
Proof.
  intros Hh Ht Hn Hd.
  assert (Hi : forall b, img b E ++ tail = delta_magic ++ 1 :: b :: be_enc 4 (Z.of_nat (length E)) ++ recs E ++ tail).
  { intros b. rewrite img_enc. by rewrite <- !app_assoc. }
  destruct (d_open_nonempty f Hh) as (p & Hp & Ho).
  { rewrite Hd, Hi. done. }
  exists p. split; [done|]. rewrite Ho, Hd, (Hi 0), (Hi 1). unfold recs.
  rewrite d_load_ok; [|apply be_enc_length| |apply recs_len].
  - cbn [snd]. rewrite map_dec_rec by done. rewrite splice_lock, map_length. done.
  - rewrite be_dec_enc; [by rewrite map_length|]. rewrite pow256_4. lia.
Qed.

Lemma open_unlocked csz f : usable f -> f_data f !! 9%nat = Some 0 ->
  d_open_maybe_recover csz f = match d_open f with (f', Err e) => (fst (fclose f'), Err e) | x => x end.
Proof.
  intros (Hc & He & Hp) Hx. unfold d_open_maybe_recover, iobind at 1, iomaperr at 1.
  change d_is_locked with (is_locked_at (Z.of_nat 9)). by rewrite (is_locked_ok 9 0).
Qed.

Lemma filter_recs E : filter valid_record (map rec_of E) = map rec_of E.
Proof.
  induction E as [|x E IH]; cbn [map]; [done|]. rewrite filter_cons_True by apply rec_good. by rewrite IH.
Qed.

(** A locked file that begins with the records [E0]. *)
Lemma open_recovered csz g E0 hdr recs' rest : usable g -> f_pos g = 0%nat -> (0 < csz)%nat ->
  f_data g = delta_magic ++ hdr ++ recs E0 ++ concat recs' ++ rest -> length hdr = 6%nat ->
  hdr !! 1%nat = Some 1 -> Forall (fun r => length r = 18%nat) recs' -> (length rest < 18)%nat ->
  Forall is_byte (f_data g) -> Forall ent_typed E0 -> Z.of_nat (length (f_data g)) < 2 ^ 32 * 18 ->
  exists X f' p, Forall ent_typed X /\ map rec_of X = filter valid_record recs' /\
    (length X <= length recs')%nat /\ usable f' /\
    d_open_maybe_recover csz g = (f', Ret (DStore (group (E0 ++ X)) ∅ (Z.of_nat (length (E0 ++ X))) 0 f')) /\
    f' = File (f_kind g) (img 1 (E0 ++ X)) (f_pos f') false [] p.
Proof.
  intros Hu Hpos Hcsz Hd Hh H1 Hf Hr Hb Ht Hl.
  assert (Hbr : Forall (Forall is_byte) recs').
  { rewrite Hd, !Forall_app in Hb. destruct Hb as (_ & _ & _ & Hb & _).
    rewrite (Forall_forall _ (concat recs')) in Hb.
    apply Forall_forall. intros r Hin. apply Forall_forall. intros b Hbin. apply Hb.
    apply elem_of_list_In, in_concat. exists r. by rewrite <- !elem_of_list_In. }
  destruct (good_records_ents (filter valid_record recs')) as (X & HX & EX).
  { apply Forall_forall. intros r Hin. apply elem_of_list_filter in Hin as [Hv Hin]. split; [|done].
    rewrite Forall_forall in Hf. by apply Hf. }
  { rewrite (Forall_forall _ recs') in Hbr. apply Forall_forall. intros r Hin.
    apply elem_of_list_filter in Hin as [_ Hin]. by apply Hbr. }
  assert (HlX : (length X <= length recs')%nat).
  { rewrite <- (map_length rec_of X), EX. apply filter_length. }
  assert (Hlen : length (f_data g) = (14 + 18 * length E0 + 18 * length recs' + length rest)%nat).
  { rewrite Hd, !app_length, Hh, recs_length, concat_18_length by done. cbn [length delta_magic]. lia. }
  assert (Hx : f_data g !! 9%nat = Some 1).
  { rewrite Hd. rewrite lookup_app_r by (cbn; lia). rewrite lookup_app_l by (rewrite Hh; cbn; lia). done. }
  assert (Hout : recovers_to (f_data g) (img 0 (E0 ++ X))).
  { left. exists hdr, (map rec_of E0 ++ recs'), rest. split.
    { rewrite Hd. unfold recs. rewrite concat_app. by rewrite <- !app_assoc. }
    split; [done|]. split; [apply Forall_app; split; [apply recs_len|done]|]. split; [done|].
    unfold img. by rewrite map_app, filter_app, filter_recs, EX. }
  destruct Hu as (Hc & He & Hp). unfold d_open_maybe_recover, iobind at 1, iomaperr at 1.
  change d_is_locked with (is_locked_at (Z.of_nat 9)).
  rewrite (is_locked_ok 9 1) by done. change (negb (1 =? 0)) with true. cbv iota.
  unfold iobind at 1, iomaperr at 1.
  assert (Hrem : frem g = f_data g) by (unfold frem; by rewrite Hpos, drop_0).
  rewrite (d_recover_ok csz g (img 0 (E0 ++ X))) by (by rewrite ?Hrem).
  set (f1 := File _ _ _ _ _ _).
  destruct (d_open_image f1 (E0 ++ X)) as (p & Hp' & Ho); try done.
  { by apply Forall_app. } { rewrite app_length. lia. }
  cbn zeta in Ho. rewrite Ho. eexists X, _, _. split; [done|]. split; [done|]. split; [done|].
  split; [|split; [done|done]].
  split; [done|]. split; [done|]. right. cbn [f_pos f_data]. revert Hp'. unfold f1. cbn [f_data]. by rewrite !img_length.
Qed.
