(** A FileBuffer in memory is the FileBuffer of FileBuffer.v, as long as nobody else uses its
    array. *)
From Verif Require Import Base GoIO FileBuffer SpecFile FileBufferFacts SliceHeap SpecSlices SliceHeapFacts
  FileBufferMem SpecBufferMem.

Definition seen_fb (m : mem byte) (fb : mbuffer) : filebuffer :=
  FB (view m (mb_buffer fb)) (mb_offset fb) (mb_closed fb).

Lemma keeps_trans {T} (m1 m2 m3 : mem T) h1 h2 h3 : keeps m1 h1 m2 h2 -> keeps m2 h2 m3 h3 -> keeps m1 h1 m3 h3.
Proof.
  intros [O1 K1] [O2 K2]. split; [done|]. intros s Hs Hsep.
  destruct (K1 s Hs Hsep) as (Hs1 & Hv1 & Hp1). destruct (K2 s Hs1 Hp1) as (Hs2 & Hv2 & Hp2).
  split; [done|]. split; [congruence|done].
Qed.

Lemma fb_step_inv c fb fb' r : fb_inv fb -> fb_step c fb = Ret (fb', r) -> fb_inv fb'.
Proof.
  intros Hi. destruct c as [n|b|o w|s|]; cbn [fb_step].
  - unfold fb_read. destruct (fb_closed fb); [by intros [= <- <-]|].
    destruct (_ =? 0) eqn:E; [by intros [= <- <-]|]. apply Z.eqb_neq in E. unfold fb_inv in *.
    destruct (_ <? _) eqn:El; apply Z.ltb_lt in El || apply Z.ltb_ge in El;
      unfold go_slice; destruct (_ && _); cbn; intros [= <- <-]; cbn; lia.
  - destruct (fb_closed fb) eqn:Hc; [unfold fb_write; rewrite Hc; by intros [= <- <-]|].
    rewrite fb_write_splice by done. intros [= <- <-]. unfold fb_inv in *. cbn.
    unfold splice. rewrite !app_length, take_length, drop_length, app_length. unfold zeros. rewrite replicate_length. lia.
  - unfold fb_seek. destruct (fb_closed fb); [by intros [= <- <-]|].
    destruct (if w =? 0 then _ else _) as [t|]; [|by intros [= <- <-]].
    destruct (Z.ltb_spec (Z.of_nat (length (fb_buffer fb))) t); [by intros [= <- <-]|].
    destruct (Z.ltb_spec t 0); [by intros [= <- <-]|]. intros [= <- <-]. unfold fb_inv. cbn. lia.
  - unfold fb_truncate. destruct (fb_closed fb); [by intros [= <- <-]|].
    destruct (Z.ltb_spec s 0); [by intros [= <- <-]|]. unfold fb_inv in *.
    destruct (Z.leb_spec (s - Z.of_nat (length (fb_buffer fb))) 0).
    + rewrite go_slice_ok by lia. cbn. intros [= <- <-]. cbn. rewrite drop_0, take_length.
      destruct (Z.ltb_spec s (fb_offset fb)); lia.
    + intros [= <- <-]. cbn. rewrite app_length, replicate_length. destruct (Z.ltb_spec s (fb_offset fb)); lia.
  - intros [= <- <-]. done.
Qed.

Lemma fb_run_inv cs : forall fb fb' rs, fb_inv fb -> fb_run cs fb = Ret (fb', rs) -> fb_inv fb'.
Proof.
  induction cs as [|c cs IH]; intros fb fb' rs Hi; cbn; [by intros [= <- <-]|].
  destruct (fb_step c fb) as [[fb1 r]| | |] eqn:E; cbn; [|done..]. apply fb_step_inv in E; [|done].
  destruct (fb_run cs fb1) as [[fb2 rs2]| | |] eqn:E2; cbn; [|done..]. intros [= <- <-]. eauto.
Qed.

Lemma fb_run_app cs1 cs2 fb fb1 rs1 : fb_run cs1 fb = Ret (fb1, rs1) ->
  fb_run (cs1 ++ cs2) fb = obind (fb_run cs2 fb1) (fun '(fb2, rs2) => Ret (fb2, rs1 ++ rs2)).
Proof.
  revert fb fb1 rs1. induction cs1 as [|c cs1 IH]; intros fb fb1 rs1; cbn.
  - intros [= <- <-]. destruct (fb_run cs2 fb) as [[? ?]| | |]; done.
  - destruct (fb_step c fb) as [[fb0 r]| | |]; cbn; [|done..].
    destruct (fb_run cs1 fb0) as [[fb2 rs2]| | |] eqn:E2; cbn; [|done..]. intros [= <- <-].
    rewrite (IH _ _ _ E2). destruct (fb_run cs2 fb2) as [[? ?]| | |]; done.
Qed.

Section facts.
Context (grow : nat -> nat -> nat).

Lemma view_store_in (m : mem byte) h i vs : owns m h -> (i + length vs <= sl_len h)%nat ->
  view (store m h i vs) h = take i (view m h) ++ vs ++ drop (i + length vs) (view m h).
Proof.
  intros Ho Hi. pose proof Ho as [Hl _]. destruct h as [a o n c]; cbn [sl_len sl_cap] in *.
  pose proof (view_store m (Slice a o n c) i vs n Ho) as Hv. cbn [sl_arr sl_off sl_len sl_cap] in Hv.
  rewrite Hv by lia. unfold view; cbn.
  rewrite take_take, Nat.min_l by lia. f_equal. f_equal. rewrite skipn_firstn_comm, drop_drop, Nat.sub_add_distr, Nat.add_assoc. done.
Qed.

Lemma make_bytes_keeps (m : mem byte) n old : keeps m old (make_bytes m n).1 (make_bytes m n).2.
Proof.
  unfold make_bytes. cbn [fst snd]. set (id := fresh (dom m)).
  assert (m !! id = None) as Hf by (apply not_elem_of_dom, is_fresh).
  split.
  - split; cbn; [lia|]. right. rewrite lookup_insert. eexists. split; [done|]. by rewrite replicate_length.
  - intros s' [Hl' Hs'] _. destruct Hs' as [H0|(b & Hb & Hbb)].
    + split; [split; [done|by left]|]. split; [|by left].
      unfold view. assert (sl_len s' = 0)%nat as -> by lia. by rewrite !take_0.
    + assert (id <> sl_arr s') as Hne by (intros E; rewrite <- E in Hb; congruence).
      split; [split; [done|]; right; rewrite lookup_insert_ne by done; eauto|].
      split; [unfold view, arr; by rewrite lookup_insert_ne by done|]. right; right. cbn. done.
Qed.

Lemma make_bytes_empty (m : mem byte) n : view (make_bytes m n).1 (make_bytes m n).2 = [].
Proof. done. Qed.

Lemma append_zeros_spec n : forall m s, owns m s ->
  view (append_zeros grow n m s).1 (append_zeros grow n m s).2 = view m s ++ replicate n 0 /\
  keeps m s (append_zeros grow n m s).1 (append_zeros grow n m s).2.
Proof.
  induction n as [|n IH]; intros m s Ho; cbn [append_zeros].
  - cbn. rewrite app_nil_r. split; [done|by apply keeps_refl].
  - destruct (append_spec 0 grow m s [0] Ho) as (Hv & Hk & _).
    destruct (append_slice 0 grow m s [0]) as [m1 s1]. cbn [fst snd] in *.
    destruct (IH m1 s1 (proj1 Hk)) as [Hv1 Hk1]. split; [|by eapply keeps_trans].
    rewrite Hv1, Hv, <- app_assoc. done.
Qed.

Lemma sep_comm s t : separate s t -> separate t s.
Proof. unfold separate. naive_solver. Qed.

Lemma m_fb_step_ok c m fb : owns m (mb_buffer fb) -> fb_inv (seen_fb m fb) -> fits c m fb ->
  exists m' fb' l, m_fb_step grow c m fb = Ret (m', fb', l) /\
    fb_run (map fst l) (seen_fb m fb) = Ret (seen_fb m' fb', map snd l) /\
    owns m' (mb_buffer fb') /\
    (forall b, c = MRead b -> exists r, l = [(CRead (sl_len b), r)] /\
       view m' b = res_bytes r ++ drop (length (res_bytes r)) (view m b)) /\
    (forall s, owns m s -> separate s (mb_buffer fb) -> spares s c m ->
       owns m' s /\ view m' s = view m s /\ separate s (mb_buffer fb')).
Proof.
  intros Ho Hi Hf. pose proof (view_length m _ Ho) as Hlen. unfold fb_inv, seen_fb in Hi. cbn in Hi. rewrite Hlen in Hi.
  pose proof Ho as [Hlc _].
  assert (Hnone : forall b, view m b = [] ++ drop (length (@nil byte)) (view m b)) by done.
  destruct c as [b|b|o w|sz| |m']; cbn [m_fb_step fits spares] in *.
  - destruct Hf as [Hb Hsep]. unfold m_fb_read.
    destruct (mb_closed fb) eqn:Hc.
    { do 3 eexists. split; [done|]. split; [cbn; unfold seen_fb, fb_read; cbn; by rewrite Hc|].
      split; [done|]. split; [intros b' [= <-]; eexists; split; [done|]; cbn; by rewrite drop_0|]. eauto. }
    destruct (_ =? 0) eqn:E0.
    { do 3 eexists. split; [done|].
      split; [cbn; unfold seen_fb, fb_read; cbn; by rewrite Hc, Hlen, E0|].
      split; [done|]. split; [intros b' [= <-]; eexists; split; [done|]; cbn; by rewrite drop_0|]. eauto. }
    set (size := if _ <? Z.of_nat (sl_len b) then _ else _).
    assert (Hsz : 0 <= size /\ mb_offset fb + size <= Z.of_nat (sl_len (mb_buffer fb)) /\ size <= Z.of_nat (sl_len b)).
    { unfold size. apply Z.eqb_neq in E0. destruct (Z.ltb_spec (Z.of_nat (sl_len (mb_buffer fb)) - mb_offset fb) (Z.of_nat (sl_len b))); lia. }
    destruct (reslice (mb_buffer fb) (mb_offset fb) (mb_offset fb + size)) as [src| | |] eqn:Er.
    2-4: unfold reslice in Er; destruct (Z.leb_spec 0 (mb_offset fb)); [|lia];
      destruct (Z.leb_spec (mb_offset fb) (mb_offset fb + size)); [|lia];
      destruct (Z.leb_spec (mb_offset fb + size) (Z.of_nat (sl_cap (mb_buffer fb)))); [done|lia].
    pose proof (reslice_view m _ _ _ _ Ho Er ltac:(lia)) as Hv.
    replace (mb_offset fb + size - mb_offset fb) with size in Hv by lia.
    set (bs := take (sl_len b) (view m src)).
    assert (Hbs : bs = take (Z.to_nat size) (drop (Z.to_nat (mb_offset fb)) (view m (mb_buffer fb)))).
    { unfold bs. rewrite Hv, take_take. f_equal. lia. }
    assert (Hbl : length bs = Z.to_nat size).
    { rewrite Hbs, take_length, drop_length, Hlen. lia. }
    cbn [obind]. fold bs. do 3 eexists. split; [done|].
    pose proof (store_keeps m b 0 bs b Hb) as Hst. pose proof Hb as [Hbc _].
    assert (Hk : keeps m b (store m b 0 bs) b) by (apply Hst; done || lia). clear Hst.
    destruct Hk as [Hob Hk]. destruct (Hk (mb_buffer fb) Ho (sep_comm _ _ Hsep)) as (Ho' & Hv' & Hs').
    split.
    { cbn. unfold seen_fb, fb_read. cbn. rewrite Hc, Hlen, E0. fold size. rewrite go_slice_ok by (rewrite ?Hlen; lia).
      cbn. fold bs. rewrite Hv', Hbs. by replace (mb_offset fb + size - mb_offset fb) with size by lia. }
    split; [done|]. split.
    { intros b' [= <-]. eexists. split; [done|]. cbn [res_bytes]. rewrite view_store_in by (done || lia). done. }
    intros s Hs Hsb Hsp. destruct (Hk s Hs Hsp) as (H1 & H2 & _). done.
  - destruct Hf as [Hb Hsep]. unfold m_fb_write. pose proof (view_length m b Hb) as Hbl.
    destruct (mb_closed fb) eqn:Hc.
    { do 3 eexists. split; [done|]. split; [cbn; unfold seen_fb, fb_write; cbn; by rewrite Hc|].
      split; [done|]. split; [done|]. eauto. }
    destruct (reslice (mb_buffer fb) (mb_offset fb) (Z.of_nat (sl_len (mb_buffer fb)))) as [dst| | |] eqn:Er.
    2-4: unfold reslice in Er; destruct (Z.leb_spec 0 (mb_offset fb)); [|lia];
      destruct (Z.leb_spec (mb_offset fb) (Z.of_nat (sl_len (mb_buffer fb)))); [|lia];
      destruct (Z.leb_spec (Z.of_nat (sl_len (mb_buffer fb))) (Z.of_nat (sl_cap (mb_buffer fb)))); [done|lia].
    apply reslice_ret in Er as (_ & _ & ->). cbn [obind sl_len].
    set (off := Z.to_nat (mb_offset fb)).
    set (room := Z.to_nat (Z.of_nat (sl_len (mb_buffer fb)) - mb_offset fb)).
    set (copied := Nat.min room (sl_len b)).
    assert (Hcl : length (take copied (view m b)) = copied) by (rewrite take_length, Hbl; unfold copied; lia).
    replace (store m (Slice (sl_arr (mb_buffer fb)) (sl_off (mb_buffer fb) + off) room (sl_cap (mb_buffer fb) - off)) 0
      (take copied (view m b))) with (store m (mb_buffer fb) off (take copied (view m b)))
      by (unfold store; cbn; f_equal; f_equal; lia).
    set (m1 := store m (mb_buffer fb) off (take copied (view m b))).
    assert (Hk : keeps m (mb_buffer fb) m1 (mb_buffer fb)).
    { apply store_keeps; try done. rewrite Hcl. unfold copied, room, off. lia. }
    assert (Hv1 : view m1 (mb_buffer fb) = take off (view m (mb_buffer fb)) ++ take copied (view m b) ++
      drop (off + copied) (view m (mb_buffer fb))).
    { unfold m1. rewrite view_store_in by (done || rewrite Hcl; unfold copied, room, off; lia). by rewrite Hcl. }
    destruct (proj2 Hk b Hb Hsep) as (Hb1 & Hvb1 & _).
    assert (Habs : forall fb0 m2 (r : fbres), (fb_buffer fb0 = if (copied <? sl_len b)%nat then view m1 (mb_buffer fb) ++ drop copied (view m b) else view m1 (mb_buffer fb)) ->
      fb_offset fb0 = mb_offset fb + Z.of_nat (sl_len b) -> fb_closed fb0 = false -> m2 = m1 -> r = FBRes [] (Z.of_nat (sl_len b)) None ->
      fb_run [CWrite (view m b)] (seen_fb m fb) = Ret (fb0, [r])).
    { intros [x y z] m2 r; cbn [fb_buffer fb_offset fb_closed]. intros -> -> -> -> ->. cbn [fb_run fb_step obind].
      unfold fb_write, seen_fb. cbn [fb_closed fb_buffer fb_offset]. rewrite Hc, Hlen.
      rewrite go_slice_ok by (rewrite ?Hlen; lia). cbn [obind].
      fold off. fold room.
      assert (Hd : take room (drop off (view m (mb_buffer fb))) = drop off (view m (mb_buffer fb))).
      { apply take_ge. rewrite drop_length, Hlen. unfold room, off. lia. }
      rewrite Hd, drop_length, Hlen, Hbl.
      replace (Nat.min (sl_len (mb_buffer fb) - off) (sl_len b)) with copied by (unfold copied, room, off; lia).
      rewrite drop_drop, Hv1. destruct (copied <? sl_len b)%nat; done. }
    destruct (copied <? sl_len b)%nat eqn:Ec.
    + destruct (append_spec 0 grow m1 (mb_buffer fb) (drop copied (view m1 b)) (proj1 Hk)) as (Hva & Hka & _).
      destruct (append_slice 0 grow m1 (mb_buffer fb) (drop copied (view m1 b))) as [m2 buf]. cbn [fst snd] in Hva, Hka.
      do 3 eexists. split; [done|]. split.
      { cbn [map fst snd]. apply (Habs _ m1); cbn; [by rewrite Hva, Hvb1|done|done|done|done]. }
      pose proof (keeps_trans _ _ _ _ _ _ Hk Hka) as [Hof Hkf]. split; [done|]. split; [done|].
      intros s Hs Hss _. by apply Hkf.
    + do 3 eexists. split; [done|]. split.
      { cbn [map fst snd]. apply (Habs _ m1); cbn; done. }
      split; [exact (proj1 Hk)|]. split; [done|]. intros s Hs Hss _. by apply (proj2 Hk).
  - unfold m_fb_seek.
    assert (Hs : forall m' fb' r, m' = m -> mb_buffer fb' = mb_buffer fb -> 
      fb_seek o w (seen_fb m fb) = Ret (seen_fb m' fb', r) ->
      fb_run [CSeek o w] (seen_fb m fb) = Ret (seen_fb m' fb', [r])).
    { intros m' fb' r _ _ E. cbn. by rewrite E. }
    destruct (mb_closed fb) eqn:Hc.
    { do 3 eexists. split; [done|]. split; [cbn [map fst snd]; apply Hs; [done|done|]; unfold fb_seek, seen_fb; cbn; by rewrite Hc|].
      split; [done|]. split; [done|]. eauto. }
    destruct (if w =? 0 then _ else _) as [t|] eqn:Et.
    2: { do 3 eexists. split; [done|]. split; [cbn [map fst snd]; apply Hs; [done|done|]|].
         - unfold fb_seek, seen_fb. cbn [fb_closed fb_buffer fb_offset]. rewrite Hc, Hlen, Et. done.
         - split; [done|]. split; [done|]. eauto. }
    destruct (_ || _) eqn:Eb.
    + do 3 eexists. split; [done|]. split; [cbn [map fst snd]; apply Hs; [done|done|]|].
      * unfold fb_seek, seen_fb. cbn [fb_closed fb_buffer fb_offset]. rewrite Hc, Hlen, Et, Eb. done.
      * split; [done|]. split; [done|]. eauto.
    + do 3 eexists. split; [done|]. split; [cbn [map fst snd]; apply Hs; [done|done|]|].
      * unfold fb_seek, seen_fb. cbn [fb_closed fb_buffer fb_offset mb_closed mb_buffer mb_offset]. rewrite Hc, Hlen, Et, Eb. done.
      * split; [done|]. split; [done|]. eauto.
  - unfold m_fb_truncate.
    destruct (mb_closed fb) eqn:Hc.
    { do 3 eexists. split; [done|]. split; [cbn; unfold seen_fb, fb_truncate; cbn; by rewrite Hc|].
      split; [done|]. split; [done|]. eauto. }
    destruct (sz <? 0) eqn:Ez.
    { do 3 eexists. split; [done|]. split; [cbn; unfold seen_fb, fb_truncate; cbn; by rewrite Hc, Ez|].
      split; [done|]. split; [done|]. eauto. }
    apply Z.ltb_ge in Ez as Hz.
    destruct (_ <=? 0) eqn:Ed.
    + apply Z.leb_le in Ed as Hd.
      destruct (reslice (mb_buffer fb) 0 sz) as [b| | |] eqn:Er.
      2-4: unfold reslice in Er; destruct (Z.leb_spec 0 sz); [|lia];
        destruct (Z.leb_spec sz (Z.of_nat (sl_cap (mb_buffer fb)))); [done|lia].
      pose proof (reslice_view m _ _ _ _ Ho Er ltac:(lia)) as Hv. pose proof (reslice_owns m _ _ _ _ Ho Er) as Hob.
      cbn [obind]. do 3 eexists. split; [done|]. split.
      { cbn [map fst snd fb_run fb_step]. unfold fb_truncate, seen_fb. cbn [fb_closed fb_buffer fb_offset].
        rewrite Hc, Ez, Hlen, Ed. rewrite go_slice_ok by (rewrite ?Hlen; lia). cbn [obind mb_buffer mb_offset mb_closed]. by rewrite Hv. }
      split; [done|]. split; [done|]. intros s Hs Hss _. split; [done|]. split; [done|].
      apply reslice_ret in Er as (_ & _ & ->). unfold separate in *. cbn. destruct Hss as [?|[?|?]]; [by left|right; left; lia|by right; right].
    + apply Z.leb_gt in Ed as Hd.
      pose proof (make_bytes_keeps m (Z.to_nat sz) (mb_buffer fb)) as Hk0.
      pose proof (make_bytes_empty m (Z.to_nat sz)) as He0.
      pose proof (make_bytes_keeps m (Z.to_nat sz) empty_slice) as Hk0'.
      destruct (make_bytes m (Z.to_nat sz)) as [m0 b0]. cbn [fst snd] in *.
      destruct (proj2 Hk0' (mb_buffer fb) Ho) as (_ & Hold & _); [by right; left|].
      destruct (append_spec 0 grow m0 b0 (view m0 (mb_buffer fb)) (proj1 Hk0)) as (Hv1 & Hk1 & _).
      destruct (append_slice 0 grow m0 b0 (view m0 (mb_buffer fb))) as [m1 b1]. cbn [fst snd] in *.
      set (diff := sz - Z.of_nat (sl_len (mb_buffer fb))) in *.
      destruct (append_zeros_spec (Z.to_nat diff) m1 b1 (proj1 Hk1)) as (Hv2 & Hk2).
      destruct (append_zeros grow (Z.to_nat diff) m1 b1) as [m2 b2]. cbn [fst snd] in *.
      do 3 eexists. split; [done|]. split.
      { cbn [map fst snd fb_run fb_step]. unfold fb_truncate, seen_fb. cbn [fb_closed fb_buffer fb_offset].
        rewrite Hc, Ez, Hlen. fold diff. rewrite Ed. cbn [obind mb_buffer mb_offset mb_closed].
        by rewrite Hv2, Hv1, He0, Hold. }
      pose proof (keeps_trans _ _ _ _ _ _ (keeps_trans _ _ _ _ _ _ Hk0 Hk1) Hk2) as [Hof Hkf].
      split; [done|]. split; [done|]. intros s Hs Hss _. by apply Hkf.
  - do 3 eexists. split; [done|]. split; [done|]. split; [done|]. split; [done|]. eauto.
  - destruct Hf as [Ho' Hv']. do 3 eexists. split; [done|].
    split; [cbn; unfold seen_fb; by rewrite Hv'|]. split; [done|]. split; [done|]. intros s Hs Hss [H1 H2]. done.
Qed.

Lemma m_fb_run_ok cs : forall m fb, owns m (mb_buffer fb) -> fb_inv (seen_fb m fb) -> proper grow cs m fb ->
  exists m' fb' l, m_fb_run grow cs m fb = Ret (m', fb', l) /\
    fb_run (map fst l) (seen_fb m fb) = Ret (seen_fb m' fb', map snd l) /\
    owns m' (mb_buffer fb') /\ fb_inv (seen_fb m' fb') /\
    (forall s, owns m s -> separate s (mb_buffer fb) -> spared grow s cs m fb ->
       owns m' s /\ view m' s = view m s /\ separate s (mb_buffer fb')).
Proof.
  induction cs as [|c cs IH]; intros m fb Ho Hi Hp; cbn [m_fb_run proper spared] in *.
  - do 3 eexists. split; [done|]. split; [done|]. eauto.
  - destruct Hp as [Hf Hp]. destruct (m_fb_step_ok c m fb Ho Hi Hf) as (m1 & fb1 & l1 & E1 & R1 & Ho1 & _ & Hk1).
    assert (Hi1 : fb_inv (seen_fb m1 fb1)) by by eapply fb_run_inv.
    destruct (IH m1 fb1 Ho1 Hi1 (Hp _ _ _ E1)) as (m2 & fb2 & l2 & E2 & R2 & Ho2 & Hi2 & Hk2).
    rewrite E1. cbn [obind]. rewrite E2. cbn [obind]. do 3 eexists. split; [done|].
    split; [rewrite !map_app, (fb_run_app _ _ _ _ _ R1), R2; done|].
    split; [done|]. split; [done|]. intros s Hs Hss [Hsp1 Hsp2].
    destruct (Hk1 s Hs Hss Hsp1) as (H1 & H2 & H3). destruct (Hk2 s H1 H3 (Hsp2 _ _ _ eq_refl)) as (H4 & H5 & H6).
    split; [done|]. split; [congruence|done].
Qed.

Lemma m_fb_run_app cs1 cs2 : forall m fb m1 fb1 l1,
  m_fb_run grow cs1 m fb = Ret (m1, fb1, l1) ->
  m_fb_run grow (cs1 ++ cs2) m fb =
  obind (m_fb_run grow cs2 m1 fb1) (fun '(m2, fb2, l2) => Ret (m2, fb2, l1 ++ l2)).
Proof.
  induction cs1 as [|c cs1 IH]; intros m fb m1 fb1 l1; cbn.
  - intros [= <- <- <-]. cbn. destruct (m_fb_run grow cs2 m fb) as [[[? ?] ?]| | |]; done.
  - destruct (m_fb_step grow c m fb) as [[[m0 fb0] l0]| | |]; cbn; [|done..].
    destruct (m_fb_run grow cs1 m0 fb0) as [[[m3 fb3] l3]| | |] eqn:E; cbn; [|done..].
    intros [= <- <- <-]. rewrite (IH _ _ _ _ _ E).
    destruct (m_fb_run grow cs2 m3 fb3) as [[[? ?] ?]| | |]; cbn; [|done..]. by rewrite app_assoc.
Qed.

Lemma proper_app cs1 cs2 : forall m fb m1 fb1 l1,
  proper grow (cs1 ++ cs2) m fb -> m_fb_run grow cs1 m fb = Ret (m1, fb1, l1) ->
  proper grow cs1 m fb /\ proper grow cs2 m1 fb1.
Proof.
  induction cs1 as [|c cs1 IH]; intros m fb m1 fb1 l1; cbn.
  - intros H [= <- <- <-]. done.
  - intros [Hf Hp]. destruct (m_fb_step grow c m fb) as [[[m0 fb0] l0]| | |] eqn:E0; cbn; [|done..].
    destruct (m_fb_run grow cs1 m0 fb0) as [[[m3 fb3] l3]| | |] eqn:E; cbn; [|done..].
    intros [= <- <- <-]. destruct (IH _ _ _ _ _ (Hp _ _ _ eq_refl) E) as [H1 H2].
    split; [|done]. split; [done|]. by intros ? ? ? [= <- <- <-].
Qed.

Lemma proper_front cs1 cs2 : forall m fb, proper grow (cs1 ++ cs2) m fb -> proper grow cs1 m fb.
Proof.
  induction cs1 as [|c cs1 IH]; intros m fb; cbn; [done|]. intros [Hf Hp]. split; [done|]. eauto.
Qed.
End facts.
