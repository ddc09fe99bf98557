(** Facts about slices with backing arrays: the list functions of Arrays.v and
    Profile.v are what one sees of them. *)
From Verif Require Import Base Arrays ArraysFacts Profile Spec ProfileFacts SliceHeap SpecSlices.

Lemma inserts_split {T} (l k : list T) i :
  (i + length k <= length l)%nat ->
  list_inserts i k l = take i l ++ k ++ drop (i + length k) l.
Proof.
  intros H. apply list_eq. intros j.
  destruct (decide (j < i)%nat) as [Hj|Hj].
  - rewrite list_lookup_inserts_lt by done.
    rewrite lookup_app_l by (rewrite take_length; lia). by rewrite lookup_take.
  - rewrite lookup_app_r by (rewrite take_length; lia). rewrite take_length, Nat.min_l by lia.
    destruct (decide (j < i + length k)%nat) as [Hk|Hk].
    + rewrite list_lookup_inserts by lia. by rewrite lookup_app_l by lia.
    + rewrite list_lookup_inserts_ge by lia. rewrite lookup_app_r by lia.
      rewrite lookup_drop. f_equal. lia.
Qed.

Section heap.
Context {T : Type} (zero : T) (grow : nat -> nat -> nat).
Implicit Types (m : mem T) (s h : slice).

Lemma view_length m s : owns m s -> length (view m s) = sl_len s.
Proof.
  intros [Hl [H0|(a & Ha & Hb)]]; unfold view, arr.
  - rewrite take_length. lia.
  - rewrite Ha. cbn. rewrite take_length, drop_length. lia.
Qed.

(** What an operation on [h] that gives [h'] keeps. *)
Definition keeps m h m' h' : Prop :=
  owns m' h' /\
  forall s, owns m s -> separate s h -> owns m' s /\ view m' s = view m s /\ separate s h'.

Lemma keeps_refl m h : owns m h -> keeps m h m h.
Proof. intros H. split; done. Qed.

Lemma store_keeps m h i vs (h' : slice) :
  owns m h -> (i + length vs <= sl_cap h)%nat ->
  sl_arr h' = sl_arr h -> sl_off h' = sl_off h -> sl_cap h' = sl_cap h ->
  (sl_len h' <= sl_cap h')%nat -> keeps m h (store m h i vs) h'.
Proof.
  intros [Hl Hh] Hi Ea Eo Ec Hl'. split.
  - split; [done|]. rewrite Ea, Eo, Ec. destruct Hh as [H0|(a & Ha & Hb)]; [by left|right].
    unfold store. rewrite lookup_insert. eexists. split; [done|].
    unfold arr. rewrite Ha. cbn. by rewrite inserts_length.
  - intros s [Hls Hs] Hsep. unfold separate in *. rewrite Ea, Ec. split; [|split; [|done]].
    + split; [done|]. destruct Hs as [Hs|(b & Hb & Hbb)]; [by left|].
      destruct (decide (sl_arr s = sl_arr h)) as [E|E].
      * right. unfold store. rewrite E, lookup_insert. eexists. split; [done|].
        rewrite inserts_length. unfold arr. rewrite <- E, Hb. done.
      * right. unfold store. rewrite lookup_insert_ne by done. eauto.
    + unfold view, arr, store. destruct Hsep as [H0|[H0|Hne]].
      * assert (sl_len s = 0)%nat as -> by lia. by rewrite !take_0.
      * destruct (decide (sl_arr s = sl_arr h)) as [E|E].
        -- rewrite E, lookup_insert. cbn. assert (length vs = 0)%nat as Hv by lia.
           apply nil_length_inv in Hv as ->. cbn. unfold arr. done.
        -- by rewrite lookup_insert_ne by done.
      * by rewrite lookup_insert_ne by done.
Qed.

Lemma view_store m h i vs n :
  owns m h -> (i + length vs <= sl_cap h)%nat -> (i + length vs <= n <= sl_cap h)%nat ->
  view (store m h i vs) (Slice (sl_arr h) (sl_off h) n (sl_cap h)) =
  take i (drop (sl_off h) (arr m (sl_arr h))) ++ vs ++
  take (n - i - length vs) (drop (sl_off h + i + length vs) (arr m (sl_arr h))).
Proof.
  intros [Hl Hh] Hi Hn. unfold view, store, arr at 1. cbn [sl_arr sl_off sl_len].
  rewrite lookup_insert. cbn [default from_option id].
  destruct Hh as [H0|(a & Ha & Hb)].
  - assert (n = 0)%nat as -> by lia. assert (i = 0)%nat as -> by lia.
    assert (length vs = 0)%nat as Hv by lia. apply nil_length_inv in Hv as ->. done.
  - unfold arr. rewrite Ha. cbn. rewrite inserts_split by lia.
    rewrite drop_app_le by (rewrite take_length; lia).
    replace (drop (sl_off h) (take (sl_off h + i) a)) with (take i (drop (sl_off h) a))
      by (rewrite take_drop_commute; f_equal; f_equal; lia).
    rewrite take_app_ge by (rewrite take_length, drop_length; lia). f_equal.
    rewrite take_length, drop_length, Nat.min_l by lia.
    rewrite take_app_ge by lia. done.
Qed.

Lemma append_spec m s vs : owns m s ->
  view (append_slice zero grow m s vs).1 (append_slice zero grow m s vs).2 = view m s ++ vs /\
  keeps m s (append_slice zero grow m s vs).1 (append_slice zero grow m s vs).2 /\
  sl_len (append_slice zero grow m s vs).2 = (sl_len s + length vs)%nat.
Proof.
  intros Ho. unfold append_slice. destruct (Nat.leb_spec (sl_len s + length vs) (sl_cap s)) as [Hc|Hc].
  - cbn [fst snd sl_len]. split; [|split; [|done]].
    + rewrite view_store by (try done; lia). unfold view. f_equal.
      replace (sl_len s + length vs - sl_len s - length vs)%nat with 0%nat by lia.
      by rewrite take_0, app_nil_r.
    + apply store_keeps; cbn; done || lia.
  - cbn [fst snd sl_len]. set (id := fresh (dom m)).
    assert (m !! id = None) as Hf by (apply not_elem_of_dom, is_fresh).
    split; [|split; [|done]].
    + unfold view at 1. cbn [sl_arr sl_off sl_len]. unfold arr. rewrite lookup_insert. cbn.
      rewrite drop_0, app_assoc, take_app_alt; [done|]. rewrite app_length, view_length by done. done.
    + split.
      * split; cbn; [lia|]. right. rewrite lookup_insert. eexists. split; [done|].
        rewrite !app_length, replicate_length, view_length by done. lia.
      * intros s' [Hl' Hs'] Hsep. destruct Hs' as [H0|(b & Hb & Hbb)].
        -- split; [split; [done|by left]|]. split; [|by left].
           unfold view. assert (sl_len s' = 0)%nat as -> by lia. by rewrite !take_0.
        -- assert (id <> sl_arr s') as Hne by (intros E; rewrite <- E in Hb; congruence).
           split; [split; [done|]; right; rewrite lookup_insert_ne by done; eauto|].
           split; [unfold view, arr; by rewrite lookup_insert_ne by done|].
           right; right. cbn. done.
Qed.

Lemma reslice_ret h lo hi h' : reslice h lo hi = Ret h' ->
  0 <= lo <= hi /\ hi <= Z.of_nat (sl_cap h) /\
  h' = Slice (sl_arr h) (sl_off h + Z.to_nat lo) (Z.to_nat (hi - lo)) (sl_cap h - Z.to_nat lo).
Proof.
  unfold reslice. destruct (Z.leb_spec 0 lo), (Z.leb_spec lo hi), (Z.leb_spec hi (Z.of_nat (sl_cap h)));
    cbn; intros [= <-]; repeat split; done.
Qed.

Lemma reslice_owns m h lo hi h' : owns m h -> reslice h lo hi = Ret h' -> owns m h'.
Proof.
  intros [Hl Hh] E. apply reslice_ret in E as (Hlo & Hhi & ->). split; cbn; [lia|].
  destruct Hh as [H0|(a & Ha & Hb)]; [left; lia|]. right. exists a. split; [done|]. lia.
Qed.

Lemma reslice_view m h lo hi h' : owns m h -> reslice h lo hi = Ret h' -> hi <= Z.of_nat (sl_len h) ->
  view m h' = take (Z.to_nat (hi - lo)) (drop (Z.to_nat lo) (view m h)).
Proof.
  intros [Hl Hh] E Hle. apply reslice_ret in E as (Hlo & Hhi & ->). unfold view; cbn.
  rewrite skipn_firstn_comm, take_take, drop_drop. f_equal. lia.
Qed.

(** An operation on the initial part of a slice keeps what one on the slice keeps. *)
Lemma keeps_prefix m h l m' h' hi : reslice h 0 hi = Ret l -> keeps m l m' h' -> keeps m h m' h'.
Proof.
  intros E [Ho Hk]. apply reslice_ret in E as (_ & _ & ->). split; [done|].
  intros s Hs Hsep. apply Hk; [done|]. unfold separate in *. cbn. rewrite Nat.sub_0_r. done.
Qed.

(** [agrees m h r l]: [r] is what the function on lists, with result [l], looks like in
    memory. *)
Definition agrees m h (r : outcome (mem T * slice)) (l : outcome (list T)) : Prop :=
  match l with
  | Ret l => exists m' h', r = Ret (m', h') /\ view m' h' = l /\ keeps m h m' h'
  | Panic => r = Panic
  | Hang => r = Hang
  | Err e => r = Err e
  end.

Lemma set_elem_spec m h i v : owns m h -> 0 <= i < Z.of_nat (sl_len h) ->
  exists m', set_elem m h i v = Ret m' /\ view m' h = <[Z.to_nat i := v]> (view m h) /\ keeps m h m' h.
Proof.
  intros Ho Hi. unfold set_elem.
  destruct (Z.leb_spec 0 i), (Z.ltb_spec i (Z.of_nat (sl_len h))); try lia. cbn.
  eexists. split; [done|]. pose proof Ho as [Hl _]. split.
  - pose proof (view_store m h (Z.to_nat i) [v] (sl_len h) Ho) as E. cbn [length] in E.
    destruct h as [a o n c]; cbn in *. rewrite E by lia. clear E.
    pose proof (view_length m _ Ho) as Hlen. cbn in Hlen.
    rewrite insert_take_drop by lia. unfold view in *; cbn in *.
    rewrite take_take, Nat.min_l by lia. f_equal. f_equal.
    rewrite skipn_firstn_comm, drop_drop. f_equal; [lia|]. f_equal. lia.
  - apply store_keeps; cbn; done || lia.
Qed.

Lemma m_remove_agrees m h i : owns m h -> agrees m h (m_remove m h i) (remove_at (view m h) i).
Proof.
  intros Ho. unfold m_remove, remove_at, agrees. pose proof (view_length m h Ho) as Hlen.
  destruct (last (view m h)) as [x|] eqn:Hx.
  - assert (0 < sl_len h)%nat as Hpos by (rewrite <- Hlen; destruct (view m h); cbn in *; [done|lia]).
    assert (at_index (view m h) (Z.of_nat (sl_len h) - 1) = Ret x) as ->.
    { unfold at_index. destruct (Z.ltb_spec (Z.of_nat (sl_len h) - 1) 0); [lia|].
      rewrite last_lookup, Hlen in Hx.
      replace (Z.to_nat (Z.of_nat (sl_len h) - 1)) with (Nat.pred (sl_len h)) by lia. by rewrite Hx. }
    cbn [obind]. rewrite Hlen.
    destruct (Z.leb_spec 0 i); cbn.
    + destruct (Z.ltb_spec i (Z.of_nat (sl_len h))); cbn.
      * destruct (set_elem_spec m h i x Ho) as (m' & -> & Hv & Hk); [lia|]. cbn.
        pose proof Ho as [Hl _].
        assert (exists h', reslice h 0 (Z.of_nat (sl_len h) - 1) = Ret h') as [h' E].
        { unfold reslice. destruct (Z.leb_spec 0 (Z.of_nat (sl_len h) - 1)); [|lia].
          destruct (Z.leb_spec (Z.of_nat (sl_len h) - 1) (Z.of_nat (sl_cap h))); [|lia]. eauto. }
        rewrite E. cbn. exists m', h'. split; [done|]. destruct Hk as [Ho' Hk]. split.
        -- rewrite (reslice_view m' h _ _ h' Ho' E) by lia. rewrite drop_0, Hv. f_equal. lia.
        -- split; [exact (reslice_owns m' h _ _ h' Ho' E)|]. intros s Hs Hsep.
           destruct (Hk s Hs Hsep) as (H1 & H2 & H3). split; [done|]. split; [done|].
           apply reslice_ret in E as (_ & _ & ->). unfold separate in *. cbn.
           destruct H3 as [|[|]]; [by left|right; left; lia|by right; right].
      * unfold set_elem. destruct (Z.leb_spec 0 i); [|lia].
        destruct (Z.ltb_spec i (Z.of_nat (sl_len h))); [lia|]. done.
    + unfold set_elem. destruct (Z.leb_spec 0 i); [lia|]. done.
  - assert (view m h = []) as E by (by apply last_None). rewrite E in Hlen |- *. cbn in Hlen.
    rewrite <- Hlen. cbn. done.
Qed.

Lemma m_remove_saving_order_agrees m h i : owns m h ->
  agrees m h (m_remove_saving_order zero grow m h i) (remove_saving_order (view m h) i).
Proof.
  intros Ho. pose proof (view_length m h Ho) as Hlen. pose proof Ho as [Hl _].
  unfold m_remove_saving_order, remove_saving_order, agrees. rewrite Hlen.
  destruct (Z.leb_spec 0 i); cbn.
  - destruct (Z.leb_spec (i + 1) (Z.of_nat (sl_len h))); cbn.
    + assert (exists l, reslice h 0 i = Ret l) as [l El].
      { unfold reslice. destruct (Z.leb_spec 0 i); [|lia].
        destruct (Z.leb_spec i (Z.of_nat (sl_cap h))); [|lia]. eauto. }
      assert (exists r, reslice h (i + 1) (Z.of_nat (sl_len h)) = Ret r) as [r Er].
      { unfold reslice. destruct (Z.leb_spec 0 (i + 1)); [|lia].
        destruct (Z.leb_spec (i + 1) (Z.of_nat (sl_len h))); [|lia].
        destruct (Z.leb_spec (Z.of_nat (sl_len h)) (Z.of_nat (sl_cap h))); [|lia]. eauto. }
      rewrite El, Er. cbn.
      destruct (append_spec m l (view m r)) as (Hv & Hk & _); [exact (reslice_owns m h _ _ l Ho El)|].
      destruct (append_slice zero grow m l (view m r)) as [m' h'] eqn:E. cbn in *.
      exists m', h'. split; [done|]. split; [|exact (keeps_prefix m h l m' h' _ El Hk)].
      rewrite Hv, (reslice_view m h _ _ l Ho El), (reslice_view m h _ _ r Ho Er) by lia.
      rewrite drop_0. f_equal; [f_equal; lia|].
      rewrite take_ge; [done|]. rewrite drop_length. lia.
    + assert (reslice h (i + 1) (Z.of_nat (sl_len h)) = Panic) as Er.
      { unfold reslice. destruct (Z.leb_spec (i + 1) (Z.of_nat (sl_len h))); [lia|]. by rewrite andb_false_r. }
      unfold reslice at 1. destruct (_ && _); cbn; [|done]. by rewrite Er.
  - unfold reslice at 1. destruct (Z.leb_spec 0 i); [lia|]. done.
Qed.

Lemma m_insert_agrees m h i v : owns m h ->
  agrees m h (m_insert zero grow m h i v) (insert_at (view m h) i v).
Proof.
  intros Ho. pose proof (view_length m h Ho) as Hlen. pose proof Ho as [Hl _].
  unfold m_insert, insert_at, agrees. rewrite Hlen.
  destruct (Z.eqb_spec (Z.of_nat (sl_len h)) i) as [He|He].
  - destruct (append_spec m h [v] Ho) as (Hv & Hk & _).
    destruct (append_slice zero grow m h [v]) as [m' h']. cbn in *. eauto.
  - destruct (Z.leb_spec 0 i); cbn.
    + destruct (Z.ltb_spec i (Z.of_nat (sl_len h))); cbn.
      * assert (exists l, reslice h 0 (i + 1) = Ret l) as [l El].
        { unfold reslice. destruct (Z.leb_spec 0 (i + 1)); [|lia].
          destruct (Z.leb_spec (i + 1) (Z.of_nat (sl_cap h))); [|lia]. eauto. }
        assert (exists r, reslice h i (Z.of_nat (sl_len h)) = Ret r) as [r Er].
        { unfold reslice. destruct (Z.leb_spec 0 i); [|lia].
          destruct (Z.leb_spec i (Z.of_nat (sl_len h))); [|lia].
          destruct (Z.leb_spec (Z.of_nat (sl_len h)) (Z.of_nat (sl_cap h))); [|lia]. eauto. }
        rewrite El, Er. cbn.
        destruct (append_spec m l (view m r)) as (Hv & Hk & Hn); [exact (reslice_owns m h _ _ l Ho El)|].
        destruct (append_slice zero grow m l (view m r)) as [m1 h1] eqn:E. cbn in *.
        pose proof (keeps_prefix m h l m1 h1 _ El Hk) as [Ho1 Hk1].
        destruct (set_elem_spec m1 h1 i v Ho1) as (m2 & -> & Hv2 & Ho2 & Hk2).
        { rewrite Hn. apply reslice_ret in El as (_ & _ & ->). cbn. lia. }
        cbn. exists m2, h1. split; [done|]. split; [|split; [done|]].
        -- rewrite Hv2, Hv, (reslice_view m h _ _ l Ho El), (reslice_view m h _ _ r Ho Er) by lia.
           rewrite drop_0. f_equal. f_equal; [f_equal; lia|].
           rewrite take_ge; [done|]. rewrite drop_length. lia.
        -- intros s Hs Hsep. destruct (Hk1 s Hs Hsep) as (Ha & Hb & Hc).
           destruct (Hk2 s Ha Hc) as (Ha2 & Hb2 & Hc2). split; [done|]. split; [congruence|done].
      * assert (reslice h i (Z.of_nat (sl_len h)) = Panic) as Er.
        { unfold reslice. destruct (Z.leb_spec i (Z.of_nat (sl_len h))); [lia|]. by rewrite andb_false_r. }
        unfold reslice at 1. destruct (_ && _); cbn; [|done]. by rewrite Er.
    + unfold reslice at 1. destruct (_ && _); cbn; [|done].
      unfold reslice. destruct (Z.leb_spec 0 i); [lia|]. done.
Qed.
End heap.

Lemma m_put_agrees grow t m h v : owns m h ->
  agrees m h (m_put_saving_order grow t m h v) (put_saving_order t (view m h) v).
Proof.
  intros Ho. pose proof (view_length m h Ho) as Hlen.
  unfold m_put_saving_order, put_saving_order.
  destruct (Nat.eqb_spec (sl_len h) 0) as [H0|H0].
  - destruct (view m h) eqn:Ev; [|cbn in Hlen; lia].
    destruct (append_spec 0 grow m h [v] Ho) as (Hv & Hk & _). rewrite Ev in Hv.
    destruct (append_slice 0 grow m h [v]) as [m' h']. cbn in *. eauto.
  - destruct (view m h) as [|z l] eqn:Ev; [cbn in Hlen; lia|]. clear Hlen. rewrite <- Ev. clear z l Ev.
    destruct (binary_index_of_closest t (view m h) v) as [i| | |]; cbn; [|done..].
    destruct (at_index (view m h) i) as [y| | |]; cbn; [|done..].
    destruct (v =? y); [cbn; exists m, h; split; [done|]; split; [done|]; by apply keeps_refl|].
    destruct (y <? v); by apply m_insert_agrees.
Qed.

Lemma m_insert_order_agrees grow t m h v : owns m h ->
  agrees m h (m_insert_saving_order grow t m h v) (insert_saving_order t (view m h) v).
Proof.
  intros Ho. pose proof (view_length m h Ho) as Hlen.
  unfold m_insert_saving_order, insert_saving_order.
  destruct (Nat.eqb_spec (sl_len h) 0) as [H0|H0].
  - destruct (view m h) eqn:Ev; [|cbn in Hlen; lia].
    destruct (append_spec 0 grow m h [v] Ho) as (Hv & Hk & _). rewrite Ev in Hv.
    destruct (append_slice 0 grow m h [v]) as [m' h']. cbn in *. eauto.
  - destruct (view m h) as [|z l] eqn:Ev; [cbn in Hlen; lia|]. clear Hlen. rewrite <- Ev. clear z l Ev.
    destruct (binary_index_of_closest t (view m h) v) as [i| | |]; cbn; [|done..].
    destruct (at_index (view m h) i) as [y| | |]; cbn; [|done..].
    destruct (y <=? v); by apply m_insert_agrees.
Qed.

(** ** Profiles *)

Lemma separate_sym s t : separate s t -> separate t s.
Proof. unfold separate. naive_solver. Qed.

Definition seen (m : mem Z) (p : mprofile) : profile :=
  Profile (mp_user p) (view m (mp_likes p)) (view m (mp_dislikes p)).

Definition pwf (m : mem Z) (p : mprofile) : Prop :=
  owns m (mp_likes p) /\ owns m (mp_dislikes p) /\ separate (mp_likes p) (mp_dislikes p).

Definition apart (s : slice) (p : mprofile) : Prop :=
  separate s (mp_likes p) /\ separate s (mp_dislikes p).

Definition pkeeps (m : mem Z) (p : mprofile) (m' : mem Z) (p' : mprofile) : Prop :=
  pwf m' p' /\
  forall s, owns m s -> apart s p -> owns m' s /\ view m' s = view m s /\ apart s p'.

Definition pagrees (m : mem Z) (p : mprofile) (r : outcome (mem Z * mprofile)) (q : outcome profile)
  : Prop :=
  match q with
  | Ret q => exists m' p', r = Ret (m', p') /\ seen m' p' = q /\ pkeeps m p m' p'
  | Panic => r = Panic
  | Hang => r = Hang
  | Err e => r = Err e
  end.

Lemma likes_kept m p m' l : pwf m p -> keeps m (mp_likes p) m' l ->
  pkeeps m p m' (MProfile (mp_user p) l (mp_dislikes p)) /\
  view m' (mp_dislikes p) = view m (mp_dislikes p).
Proof.
  intros (Hl & Hd & Hs) [Ho Hk].
  destruct (Hk _ Hd (separate_sym _ _ Hs)) as (Hd' & Hv & Hs'). split; [|done]. split.
  - split; [done|]. split; [done|]. by apply separate_sym.
  - intros s Hos [Ha Hb]. destruct (Hk s Hos Ha) as (H1 & H2 & H3). split; [done|]. split; [done|].
    split; done.
Qed.

Lemma dislikes_kept m p m' l : pwf m p -> keeps m (mp_dislikes p) m' l ->
  pkeeps m p m' (MProfile (mp_user p) (mp_likes p) l) /\
  view m' (mp_likes p) = view m (mp_likes p).
Proof.
  intros (Hl & Hd & Hs) [Ho Hk].
  destruct (Hk _ Hl Hs) as (Hd' & Hv & Hs'). split; [|done]. split.
  - split; [done|]. split; [done|]. done.
  - intros s Hos [Ha Hb]. destruct (Hk s Hos Hb) as (H1 & H2 & H3). split; [done|]. split; [done|].
    split; done.
Qed.

Lemma pkeeps_refl m p : pwf m p -> pkeeps m p m p.
Proof. intros H. split; done. Qed.

Lemma pkeeps_trans m1 p1 m2 p2 m3 p3 : pkeeps m1 p1 m2 p2 -> pkeeps m2 p2 m3 p3 -> pkeeps m1 p1 m3 p3.
Proof.
  intros [H1 K1] [H2 K2]. split; [done|]. intros s Hs Ha.
  destruct (K1 s Hs Ha) as (Ho & Hv & Ha'). destruct (K2 s Ho Ha') as (Ho2 & Hv2 & Ha2).
  split; [done|]. split; [congruence|done].
Qed.

Lemma m_unlike_agrees grow m p x : pwf m p ->
  pagrees m p (m_unlike grow m p x) (unlike (seen m p) x).
Proof.
  intros Hp. unfold m_unlike, unlike. cbn [seen p_likes p_user p_dislikes].
  destruct (index_u64 (view m (mp_likes p)) x) as [i| | |]; cbn; [|done..].
  destruct (0 <=? i); [|cbn; exists m, p; split; [done|]; split; [done|by apply pkeeps_refl]].
  pose proof (m_remove_saving_order_agrees 0 grow m (mp_likes p) i (proj1 Hp)) as Ha.
  destruct (remove_saving_order (view m (mp_likes p)) i) as [l| | |]; cbn in Ha |- *; [|by rewrite Ha..].
  destruct Ha as (m' & l' & E & Hv & Hk). destruct (likes_kept m p m' l' Hp Hk) as (Hk' & Hd).
  rewrite E. cbn. eexists _, _. split; [done|]. split; [|done]. unfold seen; cbn. by rewrite Hv, Hd.
Qed.

Lemma m_undislike_agrees grow m p x : pwf m p ->
  pagrees m p (m_undislike grow m p x) (undislike (seen m p) x).
Proof.
  intros Hp. unfold m_undislike, undislike. cbn [seen p_likes p_user p_dislikes].
  destruct (index_u64 (view m (mp_dislikes p)) x) as [i| | |]; cbn; [|done..].
  destruct (0 <=? i); [|cbn; exists m, p; split; [done|]; split; [done|by apply pkeeps_refl]].
  pose proof (m_remove_saving_order_agrees 0 grow m (mp_dislikes p) i (proj1 (proj2 Hp))) as Ha.
  destruct (remove_saving_order (view m (mp_dislikes p)) i) as [l| | |]; cbn in Ha |- *; [|by rewrite Ha..].
  destruct Ha as (m' & l' & E & Hv & Hk). destruct (dislikes_kept m p m' l' Hp Hk) as (Hk' & Hd).
  rewrite E. cbn. eexists _, _. split; [done|]. split; [|done]. unfold seen; cbn. by rewrite Hv, Hd.
Qed.

Lemma pagrees_trans m p m1 p1 r q : pkeeps m p m1 p1 -> pagrees m1 p1 r q -> pagrees m p r q.
Proof.
  intros Hk. unfold pagrees. destruct q; [|done..].
  intros (m' & p' & E & Hs & Hk'). exists m', p'. split; [done|]. split; [done|].
  by eapply pkeeps_trans.
Qed.

Lemma m_run_op_agrees grow m p o : pwf m p ->
  pagrees m p (m_run_op grow m p o) (run_profile_op (seen m p) o).
Proof.
  intros Hp. destruct o as [x|x|x|x|x]; cbn [m_run_op run_profile_op].
  - unfold m_like, like.
    pose proof (m_put_agrees grow U64 m (mp_likes p) x (proj1 Hp)) as Ha. cbn [seen p_likes].
    destruct (put_saving_order U64 (view m (mp_likes p)) x) as [l| | |]; cbn in Ha |- *; [|by rewrite Ha..].
    destruct Ha as (m' & l' & E & Hv & Hk). destruct (likes_kept m p m' l' Hp Hk) as (Hk' & Hd).
    rewrite E. cbn. eapply pagrees_trans; [exact Hk'|].
    pose proof (m_undislike_agrees grow m' _ x (proj1 Hk')) as H. unfold seen in H; cbn in H.
    rewrite Hv, Hd in H. exact H.
  - by apply m_unlike_agrees.
  - unfold m_dislike, dislike.
    pose proof (m_put_agrees grow U64 m (mp_dislikes p) x (proj1 (proj2 Hp))) as Ha. cbn [seen p_dislikes].
    destruct (put_saving_order U64 (view m (mp_dislikes p)) x) as [l| | |]; cbn in Ha |- *; [|by rewrite Ha..].
    destruct Ha as (m' & l' & E & Hv & Hk). destruct (dislikes_kept m p m' l' Hp Hk) as (Hk' & Hd).
    rewrite E. cbn. eapply pagrees_trans; [exact Hk'|].
    pose proof (m_unlike_agrees grow m' _ x (proj1 Hk')) as H. unfold seen in H; cbn in H.
    rewrite Hv, Hd in H. exact H.
  - by apply m_undislike_agrees.
  - unfold m_remove_item, remove_item.
    pose proof (m_unlike_agrees grow m p x Hp) as Ha.
    destruct (unlike (seen m p) x) as [q| | |]; cbn in Ha |- *; [|by rewrite Ha..].
    destruct Ha as (m' & p' & -> & <- & Hk). cbn.
    eapply pagrees_trans; [exact Hk|]. apply m_undislike_agrees, Hk.
Qed.

(** ** Processes with several profiles *)

Definition world_ok (s : mem Z * list mprofile) : Prop :=
  (forall k p, s.2 !! k = Some p -> pwf s.1 p) /\
  (forall j k p q, j <> k -> s.2 !! j = Some p -> s.2 !! k = Some q ->
     apart (mp_likes p) q /\ apart (mp_dislikes p) q).

Lemma seen_kept m p m' p' q : pkeeps m p m' p' -> pwf m q ->
  apart (mp_likes q) p -> apart (mp_dislikes q) p ->
  pwf m' q /\ seen m' q = seen m q /\ apart (mp_likes q) p' /\ apart (mp_dislikes q) p'.
Proof.
  intros [_ Hk] (Hl & Hd & Hs) Ha Hb.
  destruct (Hk _ Hl Ha) as (H1 & H2 & H3). destruct (Hk _ Hd Hb) as (H4 & H5 & H6).
  split; [split; done|]. split; [|done]. unfold seen. by rewrite H2, H5.
Qed.

Lemma apart_sym p q : apart (mp_likes p) q -> apart (mp_dislikes p) q ->
  apart (mp_likes q) p /\ apart (mp_dislikes q) p.
Proof. intros [A B] [C D]. split; split; by apply separate_sym. Qed.

Lemma world_new m ps u : world_ok (m, ps) -> world_ok (m, ps ++ [m_new_profile u]).
Proof.
  intros [H1 H2]; cbn in *. split; cbn.
  - intros k p Hk. apply lookup_app_Some in Hk as [Hk|[_ Hk]]; [eauto|].
    apply list_lookup_singleton_Some in Hk as [_ <-]. split; [|split]; cbn; [| |by left].
    + split; cbn; [lia|by left].
    + split; cbn; [lia|by left].
  - intros j k p q Hne Hj Hk.
    apply lookup_app_Some in Hj as [Hj|[Hj0 Hj]]; apply lookup_app_Some in Hk as [Hk|[Hk0 Hk]].
    + eauto.
    + apply list_lookup_singleton_Some in Hk as [_ <-]. split; split; right; by left.
    + apply list_lookup_singleton_Some in Hj as [_ <-]. split; split; by left.
    + apply list_lookup_singleton_Some in Hj as [? <-]. split; split; by left.
Qed.

Lemma world_op m ps k p m' p' : world_ok (m, ps) -> ps !! k = Some p -> pkeeps m p m' p' ->
  world_ok (m', <[k := p']> ps) /\
  (forall j q, j <> k -> ps !! j = Some q -> seen m' q = seen m q).
Proof.
  intros [H1 H2] Hp Hk; cbn in *.
  assert (forall j q, j <> k -> ps !! j = Some q ->
    pwf m' q /\ seen m' q = seen m q /\ apart (mp_likes q) p' /\ apart (mp_dislikes q) p') as Hoth.
  { intros j q Hne Hq. destruct (H2 j k q p Hne Hq Hp) as [Ha Hb].
    eapply seen_kept; eauto. }
  assert (k < length ps)%nat as Hlt by by eapply lookup_lt_Some.
  split; [split; cbn|].
  - intros j q Hq. destruct (decide (j = k)) as [->|Hne].
    + rewrite list_lookup_insert in Hq by done. injection Hq as <-. apply Hk.
    + rewrite list_lookup_insert_ne in Hq by done. by apply (Hoth j).
  - intros i j q r Hne Hq Hr.
    destruct (decide (i = k)) as [->|Hik], (decide (j = k)) as [->|Hjk]; [done|..].
    + rewrite list_lookup_insert in Hq by done. injection Hq as <-.
      rewrite list_lookup_insert_ne in Hr by done.
      destruct (Hoth j r Hjk Hr) as (_ & _ & Ha & Hb). by apply apart_sym.
    + rewrite list_lookup_insert in Hr by done. injection Hr as <-.
      rewrite list_lookup_insert_ne in Hq by done.
      destruct (Hoth i q Hik Hq) as (_ & _ & Ha & Hb). done.
    + rewrite list_lookup_insert_ne in Hq, Hr by done. eauto.
  - intros j q Hne Hq. by apply (Hoth j q Hne Hq).
Qed.

Lemma run_profile_app p ops o : run_profile p (ops ++ [o]) =
  obind (run_profile p ops) (fun q => run_profile_op q o).
Proof. unfold run_profile. by rewrite fold_left_app. Qed.

Lemma made_app a b : made (a ++ b) = made a ++ made b.
Proof. induction a as [|[u|k o] a IH]; cbn; [done|by rewrite IH|done]. Qed.
Lemma calls_on_app k a b : calls_on k (a ++ b) = calls_on k a ++ calls_on k b.
Proof.
  induction a as [|[u|j o] a IH]; cbn; [done|done|]. destruct (j =? k)%nat; cbn; by rewrite IH.
Qed.
Lemma valid_app n a b : valid_from n (a ++ b) <-> valid_from n a /\ valid_from (n + length (made a)) b.
Proof.
  revert n. induction a as [|[u|j o] a IH]; intros n; cbn.
  - rewrite Nat.add_0_r. tauto.
  - rewrite IH. by rewrite Nat.add_succ_r.
  - rewrite IH. tauto.
Qed.
Lemma calls_on_fresh n k cs : valid_from n cs -> (n + length (made cs) <= k)%nat -> calls_on k cs = [].
Proof.
  revert n. induction cs as [|[u|j o] cs IH]; intros n; cbn; [done|..].
  - intros Hv Hk. apply (IH (S n)); [done|lia].
  - intros (Hj & _ & Hv) Hk. destruct (Nat.eqb_spec j k); [lia|]. by apply (IH n).
Qed.
Lemma calls_on_typed n k cs : valid_from n cs -> Forall (fun o => is_u64 (op_item o)) (calls_on k cs).
Proof.
  revert n. induction cs as [|[u|j o] cs IH]; intros n; cbn; [constructor|..].
  - intros Hv. by apply (IH (S n)).
  - intros (_ & Ho & Hv). destruct (j =? k)%nat; [constructor; [done|]|]; by apply (IH n).
Qed.

Lemma m_run_agrees grow cs : valid_from 0 cs ->
  exists m ps, m_run grow (∅, []) cs = Ret (m, ps) /\ world_ok (m, ps) /\
    length ps = length (made cs) /\
    forall k p, ps !! k = Some p -> exists u, made cs !! k = Some u /\
      run_profile (new_profile u) (calls_on k cs) = Ret (seen m p).
Proof.
  induction cs as [|c cs IH] using rev_ind; intros Hv.
  { exists ∅, []. split; [done|]. split; [split; cbn; naive_solver|]. split; [done|]. naive_solver. }
  pose proof Hv as Hv0. apply valid_app in Hv as [Hv Hc].
  destruct (IH Hv) as (m & ps & E & Hw & Hlen & Hp).
  unfold m_run in *. rewrite fold_left_app, E. cbn [fold_left obind]. rewrite made_app, app_length.
  destruct c as [u|k o]; cbn in Hc |- *.
  - eexists _, _. split; [done|]. split; [by apply world_new|]. split; [rewrite app_length; cbn; lia|].
    intros k p Hk. rewrite calls_on_app. cbn. rewrite app_nil_r.
    apply lookup_app_Some in Hk as [Hk|[Hk0 Hk]].
    + destruct (Hp k p Hk) as (w & Hw1 & Hw2). exists w. split; [|done]. by apply lookup_app_l_Some.
    + apply list_lookup_singleton_Some in Hk as [Hk1 <-].
      assert (k = length (made cs)) as -> by lia.
      exists u. split; [by rewrite lookup_app_r, Nat.sub_diag by lia|].
      rewrite (calls_on_fresh 0) by (done || cbn; lia). cbn. unfold run_profile, seen; cbn.
      unfold view, arr; cbn. done.
  - destruct Hc as (Hk & Ho & _). cbn in Hk.
    destruct (lookup_lt_is_Some_2 ps k) as [p Hpk]; [lia|]. rewrite Hpk.
    destruct (Hp k p Hpk) as (u & Hu & Hr).
    pose proof (m_run_op_agrees grow m p o (proj1 Hw k p Hpk)) as Ha.
    pose proof (run_profile_verdicts u (calls_on k cs ++ [o])) as (q & Eq & _).
    { apply Forall_app. split; [by eapply calls_on_typed|by constructor]. }
    rewrite run_profile_app, Hr in Eq. cbn in Eq. rewrite Eq in Ha. cbn in Ha.
    destruct Ha as (m' & p' & -> & Hs & Hk'). cbn.
    destruct (world_op m ps k p m' p' Hw Hpk Hk') as [Hw' Hoth].
    eexists _, _. split; [done|]. split; [done|].
    split; [rewrite insert_length; cbn; lia|].
    intros j r Hj. rewrite app_nil_r, calls_on_app. cbn.
    destruct (decide (j = k)) as [->|Hne].
    + rewrite list_lookup_insert in Hj by (rewrite Hlen; done). injection Hj as <-.
      exists u. split; [done|]. rewrite Nat.eqb_refl, run_profile_app, Hr. cbn. by rewrite Eq, Hs.
    + rewrite list_lookup_insert_ne in Hj by done. destruct (Hp j r Hj) as (w & Hw1 & Hw2).
      exists w. split; [done|]. destruct (Nat.eqb_spec k j); [done|]. rewrite app_nil_r, Hw2.
      by rewrite (Hoth j r).
Qed.
