(** Proofs about the printed text. *)
From Verif Require Import Base GoIO Delta Config SpecJson Json JsonFacts JsonCodec JsonCodecFacts SpecLock SpecDelta
  DeltaFacts DeltaStoreFacts DeltaSession DeltaHistFacts DeltaPrint.

(** ** The text can be read back *)

Lemma format_uint_cut n m r r' : 0 <= n -> 0 <= m -> no_digit r -> no_digit r' ->
  format_uint n ++ r = format_uint m ++ r' -> n = m /\ r = r'.
Proof.
  intros Hn Hm Hr Hr' E. destruct (format_uint_spec n Hn) as [Fn Vn]. destruct (format_uint_spec m Hm) as [Fm Vm].
  apply int_part_digits in Fn as [Fn _]. apply int_part_digits in Fm as [Fm _].
  apply (f_equal span_digits) in E. rewrite !span_digits_app in E by done. injection E as E1 E2.
  split; [|done]. by rewrite <- Vn, <- Vm, E1.
Qed.

Lemma format_uint_head n : 0 <= n -> exists c r, format_uint n = c :: r /\ 48 <= c <= 57.
Proof.
  intros Hn. destruct (format_uint_spec n Hn) as [Fn _]. apply int_part_digits in Fn as [Fn (c & r & E)].
  exists c, r. split; [done|]. rewrite E in Fn. apply Forall_cons in Fn as [Hc _]. exact Hc.
Qed.

Lemma no_digit_cons c r : is_digit c = false -> no_digit (c :: r).
Proof. intros H d s' [= <- _]. done. Qed.

(** What follows an element of a sequence. *)
Definition ends (r : list byte) : Prop := exists c r', r = c :: r' /\ (c = 32 \/ c = 93).

(** A way to show values of which the end can be seen. *)
Definition cuts {A} (ok : A -> Prop) (show : A -> list byte) : Prop :=
  (forall x, ok x -> exists c r, show x = c :: r /\ c <> 93 /\ c <> 32) /\
  (forall x y r r', ok x -> ok y -> ends r -> ends r' -> show x ++ r = show y ++ r' -> x = y /\ r = r').

Lemma spaced_cuts {A} (ok : A -> Prop) show : cuts ok show ->
  forall l k r r', Forall ok l -> Forall ok k ->
  spaced (map show l) ++ 93 :: r = spaced (map show k) ++ 93 :: r' -> l = k /\ r = r'.
Proof.
  intros [Hh Hc] l. induction l as [|x l IH]; intros k r r' Hl Hk E.
  - destruct k as [|y k].
    { cbn in E. by injection E as ->. }
    exfalso. apply Forall_cons in Hk as [Hy _]. destruct (Hh y Hy) as (c & t & Ey & Hne & _).
    destruct k; cbn [map spaced app] in E; rewrite Ey in E; cbn in E; injection E; congruence.
  - apply Forall_cons in Hl as [Hx Hl]. destruct k as [|y k].
    { exfalso. destruct (Hh x Hx) as (c & t & Ex & Hne & _).
      destruct l; cbn [map spaced app] in E; rewrite Ex in E; cbn in E; injection E; congruence. }
    apply Forall_cons in Hk as [Hy Hk].
    assert (Hs : forall z (m : list A) t, spaced (map show (z :: m)) ++ 93 :: t =
      show z ++ match m with [] => 93 :: t | _ => 32 :: spaced (map show m) ++ 93 :: t end).
    { intros z m t. destruct m; [done|]. cbn [map spaced]. rewrite <- app_assoc. done. }
    rewrite !Hs in E. apply Hc in E as [-> E]; [|done|done| |].
    2,3: match goal with |- ends (match ?m with _ => _ end) => destruct m end; eexists _, _; (split; [reflexivity|]); auto.
    destruct l as [|x' l], k as [|y' k].
    + injection E as ->. done.
    + discriminate E.
    + discriminate E.
    + apply (f_equal tl) in E. cbn [tl] in E. apply IH in E as [E ->]; [|done|done]. by rewrite E.
Qed.

Definition delta_ok (d : item_delta) : Prop := 0 <= id_item d /\ 0 <= id_op d.

Lemma delta_cuts : cuts delta_ok show_delta.
Proof.
  split.
  - intros x _. unfold show_delta. cbn [ascii_bytes]. eexists _, _. split; [reflexivity|]. split; intros H; vm_compute in H; discriminate.
  - intros x y r r' [Hx1 Hx2] [Hy1 Hy2] _ _ E. unfold show_delta in E. rewrite <- !app_assoc in E.
    injection E as E. apply format_uint_cut in E as [E1 E]; [|done|done|by apply no_digit_cons|by apply no_digit_cons].
    injection E as E. apply format_uint_cut in E as [E2 E]; [|done|done|by apply no_digit_cons|by apply no_digit_cons].
    injection E as E. split; [|done]. destruct x, y. cbn in *. congruence.
Qed.

Lemma deltas_cut l k r r' : Forall delta_ok l -> Forall delta_ok k ->
  show_deltas l ++ r = show_deltas k ++ r' -> l = k /\ r = r'.
Proof.
  intros Hl Hk E. unfold show_deltas in E. rewrite <- !app_assoc in E. injection E as E.
  by apply (spaced_cuts delta_ok show_delta delta_cuts) in E.
Qed.

Definition user_ok (x : Z * list item_delta) : Prop := 0 <= fst x /\ Forall delta_ok (snd x).

Lemma user_cuts : cuts user_ok show_user.
Proof.
  split.
  - intros x [Hx _]. unfold show_user. destruct (format_uint_head (fst x) Hx) as (c & r & -> & Hc).
    eexists _, _. split; [reflexivity|]. lia.
  - intros [u l] [v k] r r' [Hu Hl] [Hv Hk] _ _ E. unfold show_user in E. cbn [fst snd] in *. rewrite <- !app_assoc in E.
    apply format_uint_cut in E as [-> E]; [|done|done|by apply no_digit_cons|by apply no_digit_cons].
    apply (f_equal tl) in E. change (show_deltas l ++ r = show_deltas k ++ r') in E.
    apply deltas_cut in E as [-> ->]; done.
Qed.

Definition map_ok (m : gmap Z (list item_delta)) : Prop := forall u l, m !! u = Some l -> user_ok (u, l).

Lemma sorted_ok m : map_ok m -> Forall user_ok (merge_sort by_user (map_to_list m)).
Proof.
  intros H. rewrite merge_sort_Permutation. apply Forall_forall. intros [u l] Hin. apply elem_of_map_to_list in Hin. by apply H.
Qed.

Lemma map_cut m m' r r' : map_ok m -> map_ok m' -> show_map m ++ r = show_map m' ++ r' -> m = m' /\ r = r'.
Proof.
  intros Hm Hm' E. unfold show_map in E. rewrite <- !app_assoc in E. injection E as E.
  apply (spaced_cuts user_ok show_user user_cuts) in E as [E ->]; [|by apply sorted_ok|by apply sorted_ok].
  split; [|done]. apply map_to_list_inj.
  rewrite <- (merge_sort_Permutation by_user (map_to_list m)), E. apply merge_sort_Permutation.
Qed.

Lemma storage_read addr addr' s s' : map_ok (ds_cache s) -> map_ok (ds_new s) -> map_ok (ds_cache s') -> map_ok (ds_new s') ->
  show_storage addr s = show_storage addr' s' -> ds_cache s = ds_cache s' /\ ds_new s = ds_new s'.
Proof.
  intros H1 H2 H3 H4 E. unfold show_storage in E. apply (f_equal (drop 2)) in E.
  match type of E with drop 2 (_ ++ ?a) = drop 2 (_ ++ ?b) => change (a = b) in E end.
  apply map_cut in E as [Ec E]; [|done|done]. apply (f_equal tl) in E.
  match type of E with tl (_ ++ ?a) = tl (_ ++ ?b) => change (a = b) in E end.
  apply map_cut in E as [En _]; done.
Qed.

Lemma inv_maps h E s : dinv h E s -> map_ok (ds_cache s) /\ map_ok (ds_new s).
Proof.
  intros I. split; intros u l Hl.
  - rewrite (di_cache _ _ _ I), group_lookup in Hl. pose proof (di_typed _ _ _ I) as Ht.
    rewrite Forall_forall in Ht.
    assert (Hin : forall d, d ∈ of_user u E -> 0 <= u /\ delta_ok d).
    { intros d Hd. unfold of_user in Hd. apply elem_of_list_fmap in Hd as ([v d'] & -> & Hd).
      apply elem_of_list_filter in Hd as [Hv Hd]. cbn in Hv. subst v. destruct (Ht _ Hd) as (H1 & H2 & H3).
      cbn in *. unfold is_byte, is_u64 in *. split; [lia|]. split; lia. }
    destruct (of_user u E) as [|d k]; [done|]. injection Hl as <-. split.
    + apply (Hin d). by left.
    + apply Forall_forall. intros d' Hd'. by apply Hin.
  - destruct (di_new _ _ _ I u l Hl) as (_ & _ & Hu & Hd). split; [unfold is_u64 in Hu; cbn; lia|].
    apply Forall_forall. intros d Hin. destruct (Hd d Hin). unfold is_byte, is_u64 in *. split; lia.
Qed.

(** ** Its length *)

Lemma spaced_length l : (length (concat l) <= length (spaced l))%nat.
Proof.
  induction l as [|x [|y l] IH]; [done|cbn; rewrite app_nil_r; lia|].
  change (spaced (x :: y :: l)) with (x ++ ascii_bytes " " ++ spaced (y :: l)).
  change (concat (x :: y :: l)) with (x ++ concat (y :: l)). rewrite !app_length. lia.
Qed.

Lemma show_delta_length d : delta_ok d -> (5 <= length (show_delta d))%nat.
Proof.
  intros [H1 H2]. unfold show_delta. destruct (format_uint_head _ H1) as (? & ? & -> & _).
  destruct (format_uint_head _ H2) as (? & ? & -> & _). rewrite !app_length. cbn. lia.
Qed.

Lemma concat_min {A} (show : A -> list byte) w l : Forall (fun x => (w <= length (show x))%nat) l ->
  (w * length l <= length (concat (map show l)))%nat.
Proof.
  induction 1 as [|x l Hx _ IH]; [cbn; lia|]. cbn [map concat length]. rewrite app_length. lia.
Qed.

Lemma show_user_length x : user_ok x -> (5 * length (snd x) <= length (show_user x))%nat.
Proof.
  intros [_ Hd]. unfold show_user, show_deltas. rewrite !app_length.
  pose proof (spaced_length (map show_delta (snd x))).
  assert (5 * length (snd x) <= length (concat (map show_delta (snd x))))%nat; [|lia].
  apply concat_min. eapply Forall_impl; [exact Hd|]. apply show_delta_length.
Qed.

Lemma show_map_length m : map_ok m -> (5 * length (pend m) <= length (show_map m))%nat.
Proof.
  intros Hm. unfold show_map. rewrite !app_length.
  pose proof (spaced_length (map show_user (merge_sort by_user (map_to_list m)))).
  assert (5 * length (pend m) <= length (concat (map show_user (merge_sort by_user (map_to_list m)))))%nat; [|lia].
  unfold pend. rewrite <- (flat_perm _ _ (merge_sort_Permutation by_user (map_to_list m))).
  clear H. pose proof (sorted_ok m Hm) as Hs. induction Hs as [|[u l] k Hx _ IH]; [cbn; lia|].
  cbn [map concat]. rewrite !app_length, map_length. pose proof (show_user_length _ Hx).
  cbn [snd] in *. lia.
Qed.

Lemma pend_addto F : forall c, length (pend (addto c F)) = (length (pend c) + length F)%nat.
Proof.
  induction F as [|[u d] F IH]; intros c; [cbn; lia|].
  change (addto c ((u, d) :: F)) with (addto (cache_add c u d) F). rewrite IH. unfold cache_add.
  rewrite pend_insert, app_length, map_length, app_length. cbn [length].
  destruct (c !! u) as [l|] eqn:El; cbn [default from_option id].
  - rewrite (pend_lookup _ _ _ El), app_length, map_length. lia.
  - rewrite (pend_delete_none _ _ El). cbn [length]. lia.
Qed.

Lemma storage_length addr h E s : dinv h E s -> 5 * ds_total s <= Z.of_nat (length (show_storage addr s)).
Proof.
  intros I. destruct (inv_maps h E s I) as [Hc Hn]. apply show_map_length in Hc, Hn.
  rewrite (di_total _ _ _ I). rewrite (di_cache _ _ _ I) in Hc. unfold group in Hc. rewrite pend_addto in Hc.
  change (length (pend ∅)) with 0%nat in Hc. unfold show_storage. rewrite !app_length, (di_cache _ _ _ I). unfold group. lia.
Qed.
