(** Facts about the memory requested by opening a delta file. *)
From Verif Require Import Base GoIO GoIOFacts CodecFacts Lock Delta DeltaFacts RecdbMem RobustFacts RecdbMemFacts DeltaMem.

(** ** Leaving the counter out *)

(** As [erases], where the result of the counted version has capacities that the other
    one lacks. *)
Definition erases_to {S A B} (g : A -> B) (m : io (S * Z) A) (m' : io S B) : Prop := forall s z,
  (fst (fst (m (s, z))), obind (snd (m (s, z))) (fun a => Ret (g a))) = m' s.

Lemma erases_to_bind {S A A' B} (g : A -> A') (m : io (S * Z) A) (m' : io S A') (k : A -> io (S * Z) B) k' :
  erases_to g m m' -> (forall a, erases (k a) (k' (g a))) -> erases (iobind m k) (iobind m' k').
Proof.
  intros Hm Hk s z. specialize (Hm s z). unfold iobind.
  destruct (m (s, z)) as [[s' z'] [a|e| |]]; cbn in Hm; rewrite <- Hm; try done. apply Hk.
Qed.

Lemma erases_to_bind2 {S A A' B B'} (g : A -> A') (h : B -> B') (m : io (S * Z) A) (m' : io S A') (k : A -> io (S * Z) B) k' :
  erases_to g m m' -> (forall a, erases_to h (k a) (k' (g a))) -> erases_to h (iobind m k) (iobind m' k').
Proof.
  intros Hm Hk s z. specialize (Hm s z). unfold iobind.
  destruct (m (s, z)) as [[s' z'] [a|e| |]]; cbn in Hm; rewrite <- Hm; try done. apply Hk.
Qed.

Lemma erases_to_id {S A} (m : io S A) : erases_to id (on_fst m) m.
Proof. intros s z. unfold on_fst. by destruct (m s) as [s' [a|e| |]]. Qed.

Lemma append_erases {S} grow c u d : erases_to (S := S) (fmap fst) (cache_append grow c u d) (ioret (cache_add (fst <$> c) u d)).
Proof.
  intros s z. unfold cache_append, cache_add, ioret. rewrite lookup_fmap.
  destruct (c !! u) as [[l cap]|]; cbn [fmap option_fmap option_map default from_option id].
  - destruct (_ <? _)%nat; unfold iobind, request; cbn; by rewrite fmap_insert.
  - unfold iobind, request; cbn. by rewrite fmap_insert.
Qed.

Lemma load_entries_erases {R} (rd : reader R) grow n : forall c,
  erases_to (fmap fst) (load_entries_mem rd grow n c) (load_entries rd n (fst <$> c)).
Proof.
  induction n as [|n IH]; intros c; cbn [load_entries_mem load_entries]; [done|].
  eapply erases_to_bind2; [apply erases_to_id|]. intros e. cbn [id].
  intros s z. specialize (IH). unfold iobind.
  pose proof (append_erases (S := R) grow c (de_user e) (ItemDelta (de_item e) (de_op e)) s z) as Ha.
  destruct (cache_append _ _ _ _ _) as [[s' z'] [c'|x| |]]; cbn in Ha; try done.
  injection Ha as -> Ha. rewrite <- Ha. apply IH.
Qed.

Lemma d_load_erases {R} (rd : reader R) grow :
  erases_to (fun x : sized_cache * Z => (fst <$> fst x, snd x)) (d_load_mem rd grow) (d_load rd).
Proof.
  unfold d_load_mem, d_load. eapply erases_to_bind2; [apply erases_to_id|]. intros _.
  eapply erases_to_bind2; [apply erases_to_id|]. intros h. cbn [id]. destruct (negb _); [done|].
  eapply erases_to_bind2; [|intros c].
  - pose proof (load_entries_erases rd grow (Z.to_nat (dh_count h)) ∅) as H. rewrite fmap_empty in H. exact H.
  - done.
Qed.

Lemma d_open_erases grow : erases (d_open_mem grow) d_open.
Proof.
  unfold d_open_mem, d_open. apply erases_bind; [apply erases_fst|]. intros size.
  eapply (erases_to_bind (fun x : sized_cache * Z => (fst <$> fst x, snd x))).
  - destruct (size =? 0).
    + eapply erases_to_bind2; [apply erases_to_id|]. intros _. eapply erases_to_bind2; [apply erases_to_id|]. intros _.
      intros s z. cbn. by rewrite fmap_empty.
    + eapply erases_to_bind2; [apply erases_to_id|]. intros _. apply d_load_erases.
  - intros [c n]. cbn [fst snd]. apply erases_bind; [apply erases_fst|]. intros _. apply erases_fst.
Qed.

(** ** Sums over the users *)

Definition msum (g : list item_delta * nat -> Z) (c : sized_cache) : Z := map_fold (fun _ x acc => g x + acc) 0 c.

Lemma msum_new g c u x : c !! u = None -> msum g (<[u := x]> c) = g x + msum g c.
Proof. intros H. unfold msum. rewrite map_fold_insert_L; [done|intros; lia|done]. Qed.

Lemma msum_old g c u x y : c !! u = Some y -> msum g (<[u := x]> c) + g y = g x + msum g c.
Proof.
  intros H. rewrite <- (insert_delete c u y H) at 2. rewrite <- insert_delete_insert.
  rewrite !msum_new by apply lookup_delete. lia.
Qed.

Lemma msum_le g k c : map_Forall (fun _ x => g x <= k x) c -> msum g c <= msum k c.
Proof.
  induction c as [|u x c Hu IH] using map_ind; intros H; [done|].
  rewrite !msum_new by done. apply map_Forall_insert in H as [H1 H2]; [|done]. specialize (IH H2). lia.
Qed.

(** ** What the counter counts *)

(** What Go's append does (runtime/slice.go growslice, Go 1.19): a full slice gets at
    least a quarter larger, and, with what is rounded up to a size class, at most three
    times as large. *)
Definition go_growth (grow : nat -> nat) : Prop :=
  forall cap, (100 <= cap)%nat -> (5 * cap <= 4 * grow cap /\ grow cap <= 3 * cap)%nat.

Definition slots (x : list item_delta * nat) : Z := if (snd x =? 100)%nat then 100 else 5 * Z.of_nat (snd x).
Definition items_of (x : list item_delta * nat) : Z := Z.of_nat (length (fst x)).

Definition sized (x : list item_delta * nat) : Prop :=
  (1 <= length (fst x) <= snd x)%nat /\ (snd x = 100 \/ 100 < snd x <= 3 * length (fst x))%nat.

Record cache_inv (c : sized_cache) (k z : Z) : Prop := {
  ci_items : msum items_of c = k;
  ci_sized : map_Forall (fun _ => sized) c;
  ci_asked : z <= 16 * msum slots c
}.

Lemma inv_total c k z : cache_inv c k z -> z <= 1840 * k.
Proof.
  intros [Hk Hs Hz]. assert (H : msum slots c <= msum (fun x => 115 * items_of x) c).
  { apply msum_le. intros u x Hu. destruct (Hs u x Hu) as [H1 H2]. unfold slots, items_of.
    destruct (Nat.eqb_spec (snd x) 100); lia. }
  assert (E : msum (fun x => 115 * items_of x) c = 115 * msum items_of c).
  { clear. induction c as [|u x c Hu IH] using map_ind; [done|]. rewrite !msum_new by done. lia. }
  lia.
Qed.

Lemma items_snoc l d cap cap' : items_of (l ++ [d], cap) = items_of (l, cap') + 1.
Proof. unfold items_of. cbn [fst]. rewrite app_length. cbn [length]. lia. Qed.

Lemma append_inv {S} grow c k z u d (s : S) : go_growth grow -> cache_inv c k z ->
  exists c' z', cache_append grow c u d (s, z) = ((s, z'), Ret c') /\ cache_inv c' (k + 1) z'.
Proof.
  intros Hg [Hk Hs Hz]. unfold cache_append. destruct (c !! u) as [[l cap]|] eqn:E.
  - destruct (Hs u _ E) as [H1 H2]. cbn [fst snd] in H1, H2.
    destruct (Nat.ltb_spec (length l) cap) as [Hl|Hl].
    + eexists _, z. split; [done|].
      pose proof (msum_old items_of c u (l ++ [d], cap) _ E) as M1. pose proof (msum_old slots c u (l ++ [d], cap) _ E) as M2.
      rewrite (items_snoc l d cap cap) in M1. change (slots (l ++ [d], cap)) with (slots (l, cap)) in M2.
      split; [lia| |lia].
      apply map_Forall_insert_2; [|done]. split; cbn [fst snd]; rewrite app_length; cbn [length]; lia.
    + unfold iobind, request, ioret. eexists _, _. split; [done|].
      destruct (Hg cap) as [G1 G2]; [lia|].
      pose proof (msum_old items_of c u (l ++ [d], grow cap) _ E) as M1. pose proof (msum_old slots c u (l ++ [d], grow cap) _ E) as M2.
      rewrite (items_snoc l d _ cap) in M1.
      assert (S1 : slots (l ++ [d], grow cap) = 5 * Z.of_nat (grow cap)).
      { unfold slots. cbn [snd]. destruct (Nat.eqb_spec (grow cap) 100); [lia|done]. }
      assert (S2 : slots (l, cap) <= 5 * Z.of_nat cap).
      { unfold slots. cbn [snd]. destruct (Nat.eqb_spec cap 100); lia. }
      split; [lia| |lia].
      apply map_Forall_insert_2; [|done]. split; cbn [fst snd]; rewrite app_length; cbn [length]; lia.
  - unfold iobind, request, ioret. eexists _, _. split; [done|].
    split.
    + rewrite msum_new by done. change (items_of ([d], 100%nat)) with 1. lia.
    + apply map_Forall_insert_2; [|done]. split; cbn [fst snd length]; lia.
    + rewrite msum_new by done. change (slots ([d], 100%nat)) with 100. lia.
Qed.

Lemma load_entries_bound {R} (rd : reader R) mu grow n : progress rd mu -> go_growth grow ->
  forall c k z r, cache_inv c k z ->
  snd (fst (load_entries_mem rd grow n c (r, z))) * 18 <= 1840 * (18 * k + Z.of_nat (mu r)).
Proof.
  intros Hp Hg. induction n as [|n IH]; intros c k z r I; cbn [load_entries_mem].
  - pose proof (inv_total c k z I). cbn. lia.
  - unfold iobind at 1, on_fst, iomaperr. pose proof (d_read_entry_steady rd mu Hp r) as (_ & H1 & H2).
    destruct (d_read_entry rd r) as [r' [e|x| |]]; cbn [fst snd] in *;
      try (pose proof (inv_total c k z I); lia).
    unfold iobind. destruct (append_inv (S := R) grow c k z (de_user e) (ItemDelta (de_item e) (de_op e)) r' Hg I) as (c' & z' & -> & I').
    specialize (IH c' (k + 1) z' r' I'). lia.
Qed.

Lemma prefix_reads {R} (rd : reader R) mu : progress rd mu -> steady mu 8 (d_read_prefix rd).
Proof.
  intros Hp. unfold d_read_prefix. apply (steady_bind mu 8 0); [by apply read_full_steady|]. intros a.
  destruct (bool_decide _); [apply steady_ret|apply steady_fail].
Qed.

Lemma header_reads {R} (rd : reader R) mu : progress rd mu -> steady mu 6 (d_read_header rd).
Proof.
  intros Hp. unfold d_read_header. apply (steady_bind mu 6 0); [by apply read_full_steady|]. intros a. apply steady_ret.
Qed.

Lemma d_load_bound {R} (rd : reader R) mu grow r : progress rd mu -> go_growth grow ->
  snd (fst (d_load_mem rd grow (r, 0))) * 18 <= 1840 * Z.max 0 (Z.of_nat (mu r) - 14).
Proof.
  intros Hp Hg. unfold d_load_mem. unfold iobind at 1, on_fst at 1.
  destruct (prefix_reads rd mu Hp r) as (_ & _ & H1). destruct (d_read_prefix rd r) as [r1 [[]|x| |]]; cbn [fst snd] in *; try lia.
  unfold iobind at 1, on_fst at 1.
  destruct (header_reads rd mu Hp r1) as (_ & _ & H2). destruct (d_read_header rd r1) as [r2 [h|x| |]]; cbn [fst snd] in *; try lia.
  destruct (negb _); [cbn; lia|].
  assert (I : cache_inv ∅ 0 0) by (split; [done|apply map_Forall_empty|done]).
  pose proof (load_entries_bound rd mu grow (Z.to_nat (dh_count h)) Hp Hg ∅ 0 0 r2 I) as H.
  unfold iobind. destruct (load_entries_mem _ _ _ _ _) as [[r3 z] [c|x| |]]; cbn in *; lia.
Qed.

(** The rest of Open requests nothing. *)
Lemma on_fst_same {S A} (m : io S A) s (z : Z) : snd (fst (on_fst m (s, z))) = z.
Proof. unfold on_fst. by destruct (m s). Qed.

Lemma open_rest {A} (m : io file A) (k : A -> io file dstore) f (z : Z) :
  snd (fst (iobind (on_fst m) (fun a => on_fst (k a)) (f, z))) = z.
Proof.
  unfold iobind. pose proof (on_fst_same m f z) as H. destruct (on_fst m (f, z)) as [[f1 z1] [a|x| |]]; cbn in H; subst; try done.
  apply on_fst_same.
Qed.

Lemma d_open_bound grow f : go_growth grow ->
  snd (fst (d_open_mem grow (f, 0))) * 18 <= 1840 * Z.max 0 (Z.of_nat (length (f_data f)) - 14).
Proof.
  intros Hg. unfold d_open_mem. unfold iobind at 1, on_fst at 1.
  pose proof (fseek_unread 0 SeekEnd f) as Hd1. destruct (fseek 0 SeekEnd f) as [f1 [size|x| |]]; cbn [fst snd] in *; try lia.
  set (m := if size =? 0 then _ else _).
  assert (Hm : snd (fst (m (f1, 0))) * 18 <= 1840 * Z.max 0 (Z.of_nat (length (f_data f)) - 14)).
  { unfold m. destruct (size =? 0).
    - unfold iobind at 1, on_fst at 1. destruct (d_write_prefix fwrite f1) as [f2 [[]|x| |]]; cbn; try lia.
      unfold iobind at 1, on_fst at 1. destruct (d_write_header fwrite _ f2) as [f3 [[]|x| |]]; cbn; lia.
    - unfold iobind at 1, on_fst at 1. pose proof (fseek_unread 0 SeekStart f1) as Hd2.
      destruct (fseek 0 SeekStart f1) as [f2 [pos|x| |]]; cbn [fst snd] in *; try lia.
      eapply Z.le_trans; [apply (d_load_bound fread unread); [apply fread_progress|done]|].
      unfold unread. rewrite Hd2, Hd1. lia. }
  unfold iobind at 1. destruct (m (f1, 0)) as [[f2 z] [x|x| |]]; cbn [fst snd] in *; try lia.
  pose proof (open_rest (iomaperr (fun _ => EMsg "failed to lock the file") (d_write_locked true))
    (fun _ f => (f, Ret (DStore (fst <$> fst x) ∅ (snd x) 0 f))) f2 z) as H. cbn beta in H. rewrite H. lia.
Qed.

(** ** From below *)

Definition caps (x : list item_delta * nat) : Z := Z.of_nat (snd x).

Record low_inv (c : sized_cache) (k z : Z) : Prop := {
  lo_items : msum items_of c = k;
  lo_sized : map_Forall (fun _ x => (length (fst x) <= snd x /\ 100 <= snd x)%nat) c;
  lo_asked : 16 * msum caps c <= z
}.

Lemma low_total c k z : low_inv c k z -> 16 * k <= z /\ 1600 * Z.of_nat (size c) <= z.
Proof.
  intros [Hk Hs Hz]. split.
  - assert (msum items_of c <= msum caps c); [|lia]. apply msum_le. intros u x Hu. destruct (Hs u x Hu).
    unfold items_of, caps. lia.
  - assert (100 * Z.of_nat (size c) <= msum caps c); [|lia]. clear -Hs.
    induction c as [|u x c Hu IH] using map_ind; [by rewrite map_size_empty|].
    rewrite map_size_insert_None, msum_new by done. apply map_Forall_insert in Hs as [[_ H] Hs]; [|done].
    specialize (IH Hs). unfold caps at 1. lia.
Qed.

Lemma append_low {S} grow c k z u d (s s' : S) c' z' : go_growth grow -> low_inv c k z ->
  cache_append grow c u d (s, z) = ((s', z'), Ret c') -> low_inv c' (k + 1) z'.
Proof.
  intros Hg [Hk Hs Hz]. unfold cache_append. destruct (c !! u) as [[l cap]|] eqn:E.
  - destruct (Hs u _ E) as [H1 H2]. cbn [fst snd] in H1, H2.
    destruct (Nat.ltb_spec (length l) cap) as [Hl|Hl].
    + unfold ioret. intros [= <- <- <-].
      pose proof (msum_old items_of c u (l ++ [d], cap) _ E) as M1. pose proof (msum_old caps c u (l ++ [d], cap) _ E) as M2.
      rewrite (items_snoc l d cap cap) in M1. change (caps (l ++ [d], cap)) with (caps (l, cap)) in M2.
      split; [lia| |lia]. apply map_Forall_insert_2; [|done]. cbn [fst snd]. rewrite app_length. cbn [length]. lia.
    + unfold iobind, request, ioret. intros [= <- <- <-]. destruct (Hg cap) as [G1 G2]; [lia|].
      pose proof (msum_old items_of c u (l ++ [d], grow cap) _ E) as M1.
      pose proof (msum_old caps c u (l ++ [d], grow cap) _ E) as M2.
      rewrite (items_snoc l d _ cap) in M1. unfold caps in M2 at 2 3. cbn [snd] in M2.
      split; [lia| |lia]. apply map_Forall_insert_2; [|done]. cbn [fst snd]. rewrite app_length. cbn [length]. lia.
  - unfold iobind, request, ioret. intros [= <- <- <-]. split.
    + rewrite msum_new by done. change (items_of ([d], 100%nat)) with 1. lia.
    + apply map_Forall_insert_2; [|done]. cbn [fst snd length]. lia.
    + rewrite msum_new by done. change (caps ([d], 100%nat)) with 100. lia.
Qed.

Lemma load_entries_low {R} (rd : reader R) grow n : go_growth grow -> forall c k r z r' z' c', low_inv c k z ->
  load_entries_mem rd grow n c (r, z) = ((r', z'), Ret c') -> low_inv c' (k + Z.of_nat n) z'.
Proof.
  intros Hg. induction n as [|n IH]; intros c k r z r' z' c' I; cbn [load_entries_mem].
  - intros [= <- <- <-]. by rewrite Z.add_0_r.
  - unfold iobind at 1, on_fst, iomaperr. destruct (d_read_entry rd r) as [r1 [e|x| |]]; try done.
    unfold iobind. destruct (cache_append _ _ _ _ _) as [[r2 z2] [c2|x| |]] eqn:E; try done.
    intros H. eapply append_low in E; [|done|exact I]. apply (IH _ _ _ _ _ _ _ E) in H.
    replace (k + Z.of_nat (S n)) with (k + 1 + Z.of_nat n) by lia. exact H.
Qed.

Lemma d_open_low grow f f' z s : go_growth grow -> d_open_mem grow (f, 0) = ((f', z), Ret s) ->
  16 * ds_total s <= z /\ 1600 * Z.of_nat (size (ds_cache s)) <= z /\ ds_new s = ∅.
Proof.
  intros Hg. unfold d_open_mem. unfold iobind at 1, on_fst at 1. destruct (fseek 0 SeekEnd f) as [f1 [n|x| |]]; try done.
  unfold iobind at 1. set (m := if n =? 0 then _ else _).
  assert (Hm : forall f2 z2 x, m (f1, 0) = ((f2, z2), Ret x) -> 16 * snd x <= z2 /\ 1600 * Z.of_nat (size (fst x)) <= z2).
  { intros f2 z2 x. unfold m. destruct (n =? 0).
    - unfold iobind at 1, on_fst at 1. destruct (d_write_prefix fwrite f1) as [f3 [[]|y| |]]; try done.
      unfold iobind at 1, on_fst at 1. destruct (d_write_header fwrite _ f3) as [f4 [[]|y| |]]; try done.
      unfold ioret. intros [= <- <- <-]. cbn [fst snd]. rewrite map_size_empty. done.
    - unfold iobind at 1, on_fst at 1. destruct (fseek 0 SeekStart f1) as [f3 [p|y| |]]; try done.
      unfold d_load_mem. unfold iobind at 1, on_fst at 1. destruct (d_read_prefix fread f3) as [f4 [[]|y| |]]; try done.
      unfold iobind at 1, on_fst at 1. destruct (d_read_header fread f4) as [f5 [h|y| |]]; try done.
      destruct (negb _); [done|]. unfold iobind. destruct (load_entries_mem _ _ _ _ _) as [[f6 z6] [c|y| |]] eqn:E; try done.
      intros [= <- <- <-]. eapply load_entries_low in E; [|done|split; [done|apply map_Forall_empty|done]].
      apply low_total in E. change (msum items_of ∅) with 0 in E. cbn [fst snd]. lia. }
  destruct (m (f1, 0)) as [[f2 z2] [x|y| |]]; try done. specialize (Hm f2 z2 x eq_refl).
  unfold iobind, on_fst at 1. destruct (iomaperr _ _ f2) as [f3 [[]|y| |]]; try done.
  unfold on_fst. intros [= <- <- <-]. cbn [ds_cache ds_new ds_total]. rewrite map_size_fmap. split; [apply Hm|]. split; [apply Hm|done].
Qed.
