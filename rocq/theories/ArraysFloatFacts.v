(** Proofs about the float instances of internal/helpers/arrays.go. *)
From Coq Require Import Reals Lra.
From Flocq Require Import Core.Core IEEE754.BinarySingleNaN.
From Verif Require Import Base Arrays Spec ArraysFacts Similarity ArraysFloat.
Open Scope Z_scope.

(** ** The integer instances are those of Arrays.v *)

Lemma closest_loop_int t h x : forall fuel a b mi minD,
  closest_loop_g (int_arith t) fuel h x a b mi minD = closest_loop t fuel h x a b mi minD.
Proof.
  induction fuel as [|fuel IH]; intros a b mi minD; [done|]. cbn [closest_loop_g closest_loop].
  destruct (a <? b)%nat; [|done]. destruct (h !! _) as [hm|]; [|done]. cbn [int_arith ar_eq ar_lt ar_dev].
  destruct (x =? hm); [done|]. destruct (_ <? minD); destruct (x <? hm); rewrite ?IH; done.
Qed.

Lemma closest_int t h x : closest_g (int_arith t) h x = binary_index_of_closest t h x.
Proof.
  unfold closest_g, binary_index_of_closest. destruct h; [done|].
  destruct (_ !! 0%nat); [|done]. destruct (_ !! _); [|done]. cbn [int_arith ar_eq ar_lt ar_dev ar_zero].
  destruct (_ <? _); destruct (_ =? 0); rewrite ?closest_loop_int; done.
Qed.

Lemma insert_int t h v : insert_saving_order_g (int_arith t) h v = insert_saving_order t h v.
Proof. unfold insert_saving_order_g, insert_saving_order. rewrite closest_int. by destruct h. Qed.

Lemma put_int t h v : put_saving_order_g (int_arith t) h v = put_saving_order t h v.
Proof. unfold put_saving_order_g, put_saving_order. rewrite closest_int. by destruct h. Qed.

(** ** Without rounding *)

(** Integers of any size. *)
Definition exact_arith : arith Z := Arith Z Z.eqb Z.ltb (fun x y => y <=? x) (fun a b => Z.abs (a - b)) 0.

(** (The proofs of ArraysFacts.v are for types, which are bounded.) *)
Section Exact.
  Context (h : list Z) (x : Z).
  Hypothesis Hs : ascending h.

  Lemma closest_loop_exact fuel a b mi v :
    (b < length h)%nat -> (b - a < fuel)%nat -> h !! mi = Some v ->
    (forall i y, h !! i = Some y -> ~ (a < i < b)%nat -> Z.abs (v - x) <= Z.abs (y - x)) ->
    exists i y, closest_loop_g exact_arith fuel h x a b mi (Z.abs (v - x)) = Ret (Z.of_nat i) /\
      h !! i = Some y /\
      forall j z, h !! j = Some z -> Z.abs (y - x) <= Z.abs (z - x).
  Proof.
    revert a b mi v. induction fuel as [|fuel IH]; intros a b mi v Hb Hf Hv Hmin; [lia|].
    cbn [closest_loop_g].
    destruct (Nat.ltb_spec a b) as [Hab|Hab].
    2:{ exists mi, v; repeat split; try done. intros j z Hz. apply (Hmin j z Hz). lia. }
    pose proof (half_bounds a b Hab) as Hm.
    set (m := ((a + b) / 2)%nat) in *.
    destruct (lookup_lt_is_Some_2 h m ltac:(lia)) as [hm Ehm]. rewrite Ehm.
    cbn [exact_arith ar_eq ar_lt ar_dev].
    destruct (Z.eqb_spec x hm) as [E1|E1].
    { subst hm. exists m, x. repeat split; [done|]. intros. lia. }
    assert (exists mi' v',
      (if Z.abs (hm - x) <? Z.abs (v - x) then (m, Z.abs (hm - x)) else (mi, Z.abs (v - x)))
        = (mi', Z.abs (v' - x)) /\ h !! mi' = Some v' /\
      Z.abs (v' - x) <= Z.abs (hm - x) /\ Z.abs (v' - x) <= Z.abs (v - x))
      as (mi' & v' & Epair & Hv' & Hle1 & Hle2).
    { destruct (Z.ltb_spec (Z.abs (hm - x)) (Z.abs (v - x))).
      - exists m, hm. repeat split; [done|lia|lia].
      - exists mi, v. repeat split; [done|lia|lia]. }
    rewrite Epair.
    destruct (Z.ltb_spec x hm) as [Hlt|Hge].
    - replace (b =? m)%nat with false by (symmetry; apply Nat.eqb_neq; lia).
      apply IH; [lia|lia|done|].
      intros i y Hi Hni.
      destruct (decide (m <= i)%nat) as [Hmi|Hmi].
      + destruct (decide (i = m)) as [-> |Hne].
        * rewrite Ehm in Hi. injection Hi as <-. lia.
        * pose proof (Hs m i hm y ltac:(lia) Ehm Hi). lia.
      + pose proof (Hmin i y Hi ltac:(lia)). lia.
    - assert (Hleft : forall i y, h !! i = Some y -> (i <= m)%nat -> Z.abs (v' - x) <= Z.abs (y - x)).
      { intros i y Hi Him. destruct (decide (i = m)) as [-> |Hne].
        * rewrite Ehm in Hi. injection Hi as <-. lia.
        * pose proof (Hs i m y hm ltac:(lia) Hi Ehm). lia. }
      destruct (Nat.eqb_spec a m) as [Ham|Ham].
      + pose proof (half_left a b Hab Ham).
        exists mi', v'. repeat split; [done|]. intros j z Hz.
        destruct (decide (j <= m)%nat); [by apply (Hleft j)|].
        pose proof (Hmin j z Hz ltac:(lia)). lia.
      + apply IH; [lia|lia|done|].
        intros i y Hi Hni. destruct (decide (i <= m)%nat); [by apply (Hleft i)|].
        pose proof (Hmin i y Hi ltac:(lia)). lia.
  Qed.

  Lemma closest_exact :
    h <> [] ->
    exists i y, closest_g exact_arith h x = Ret (Z.of_nat i) /\
      h !! i = Some y /\
      forall j z, h !! j = Some z -> Z.abs (y - x) <= Z.abs (z - x).
  Proof.
    intros Hne. unfold closest_g.
    destruct h as [|h0 tl] eqn:Eh; [done|]. rewrite <- Eh in *.
    assert (Hlen : (0 < length h)%nat) by (rewrite Eh; simpl; lia).
    destruct (lookup_lt_is_Some_2 h (length h - 1)%nat ltac:(lia)) as [hb Eb].
    destruct (lookup_lt_is_Some_2 h 0%nat ltac:(lia)) as [ha Ea].
    rewrite Eb, Ea. cbn [exact_arith ar_eq ar_lt ar_dev ar_zero].
    assert (exists mi v,
      (if Z.abs (hb - x) <? Z.abs (ha - x) then ((length h - 1)%nat, Z.abs (hb - x))
       else (0%nat, Z.abs (ha - x))) = (mi, Z.abs (v - x)) /\ h !! mi = Some v /\
       Z.abs (v - x) <= Z.abs (ha - x) /\ Z.abs (v - x) <= Z.abs (hb - x))
      as (mi & v & Epair & Hv & Hle1 & Hle2).
    { destruct (Z.ltb_spec (Z.abs (hb - x)) (Z.abs (ha - x))).
      - exists (length h - 1)%nat, hb. repeat split; [done|lia|lia].
      - exists 0%nat, ha. repeat split; [done|lia|lia]. }
    rewrite Epair.
    destruct (Z.eqb_spec (Z.abs (v - x)) 0) as [E0|E0].
    - exists mi, v. repeat split; [done|]. intros; lia.
    - apply closest_loop_exact; [lia|lia|done|].
      intros i y Hi Hni. pose proof (lookup_lt_Some _ _ _ Hi).
      assert (i = 0 \/ i = length h - 1)%nat as [-> | ->] by lia.
      + rewrite Ea in Hi. injection Hi as <-. lia.
      + rewrite Eb in Hi. injection Hi as <-. lia.
  Qed.
End Exact.

Section ExactInsertions.
  Context (h : list Z) (v : Z).

  Lemma put_exact :
    strictly_ascending h ->
    exists r, put_saving_order_g exact_arith h v = Ret r /\ strictly_ascending r /\
      (forall y, y ∈ r <-> y ∈ h \/ y = v) /\ (v ∈ h -> r = h).
  Proof.
    intros Hs. unfold put_saving_order_g. destruct h as [|h0 tl] eqn:Eh.
    { exists [v]. repeat split.
      - apply strictly_ascending_singleton.
      - rewrite elem_of_list_singleton. by right.
      - intros [H| ->]; [by apply elem_of_nil in H|]. by apply elem_of_list_singleton.
      - intros H. by apply elem_of_nil in H. }
    rewrite <- Eh in *.
    destruct (closest_exact h v (strictly_ascending_ascending _ Hs)) as (i & y & E & Hy & Hmin).
    { rewrite Eh. done. }
    rewrite E. cbn [obind]. rewrite (at_index_lookup _ _ _ Hy). cbn [obind exact_arith ar_eq ar_lt ar_ge].
    pose proof (lookup_lt_Some _ _ _ Hy) as Hi.
    destruct (Z.eqb_spec v y) as [-> |Hne].
    { exists h. repeat split; [done| |].
      - by left.
      - intros [Hq | ->]; [done|]. by eapply elem_of_list_lookup_2. }
    assert (Hnotin : v ∉ h).
    { intros Hin. apply elem_of_list_lookup in Hin as [j Hj]. specialize (Hmin j v Hj). lia. }
    destruct (Z.ltb_spec y v) as [Hlt|Hge].
    - replace (Z.of_nat i + 1) with (Z.of_nat (S i)) by lia.
      destruct (insert_middle_Ret h (S i) v ltac:(lia)) as (l1 & l2 & -> & Hl1 & Er).
      rewrite Er. exists (l1 ++ v :: l2). split; [done|].
      assert (Hl2 : forall a, a ∈ l2 -> v < a).
      { intros a Ha. apply elem_of_list_lookup in Ha as [j Hj].
        assert (Hj' : (l1 ++ l2) !! (length l1 + j)%nat = Some a) by (by rewrite lookup_app_plus).
        pose proof (Hs i (length l1 + j)%nat y a ltac:(lia) Hy Hj').
        pose proof (Hmin _ _ Hj'). lia. }
      assert (Hl1' : forall a, a ∈ l1 -> a < v).
      { intros a Ha. apply elem_of_list_lookup in Ha as [j Hj].
        pose proof (lookup_lt_Some _ _ _ Hj).
        assert (Hj' : (l1 ++ l2) !! j = Some a) by (by apply lookup_app_l_Some).
        destruct (decide (j = i)) as [-> |].
        - assert (a = y) by congruence. lia.
        - pose proof (Hs j i a y ltac:(lia) Hj' Hy). lia. }
      apply strictly_ascending_split in Hs as (H1 & H2 & H3).
      repeat split.
      + apply strictly_ascending_split. split; [done|]. split.
        * by apply strictly_ascending_cons.
        * intros a b Ha Hb. apply elem_of_cons in Hb as [-> |Hb]; auto.
      + rewrite !elem_of_app, elem_of_cons. tauto.
      + rewrite !elem_of_app, elem_of_cons. tauto.
      + done.
    - destruct (insert_middle_Ret h i v ltac:(lia)) as (l1 & l2 & -> & Hl1 & Er).
      rewrite Er. exists (l1 ++ v :: l2). split; [done|].
      assert (Hl2 : forall a, a ∈ l2 -> v < a).
      { intros a Ha. apply elem_of_list_lookup in Ha as [j Hj].
        assert (Hj' : (l1 ++ l2) !! (length l1 + j)%nat = Some a) by (by rewrite lookup_app_plus).
        destruct (decide (length l1 + j = i)%nat) as [Eq|].
        - rewrite Eq in Hj'. assert (a = y) by congruence. lia.
        - pose proof (Hs i (length l1 + j)%nat y a ltac:(lia) Hy Hj'). lia. }
      assert (Hl1' : forall a, a ∈ l1 -> a < v).
      { intros a Ha. apply elem_of_list_lookup in Ha as [j Hj].
        pose proof (lookup_lt_Some _ _ _ Hj).
        assert (Hj' : (l1 ++ l2) !! j = Some a) by (by apply lookup_app_l_Some).
        pose proof (Hs j i a y ltac:(lia) Hj' Hy).
        pose proof (Hmin _ _ Hj'). lia. }
      apply strictly_ascending_split in Hs as (H1 & H2 & H3).
      repeat split.
      + apply strictly_ascending_split. split; [done|]. split.
        * by apply strictly_ascending_cons.
        * intros a b Ha Hb. apply elem_of_cons in Hb as [-> |Hb]; auto.
      + rewrite !elem_of_app, elem_of_cons. tauto.
      + rewrite !elem_of_app, elem_of_cons. tauto.
      + done.
  Qed.

  (** The condition under which the code's insertion point is right: the value
      is already present, or no value nearest to it is repeated. *)
  Lemma insert_exact :
    ascending h ->
    (v ∈ h \/ strictly_ascending h) ->
    exists r, insert_saving_order_g exact_arith h v = Ret r /\ ascending r /\ Permutation r (v :: h).
  Proof.
    intros Hs Hcase. unfold insert_saving_order_g. destruct h as [|h0 tl] eqn:Eh.
    { exists [v]. repeat split.
      - by apply strictly_ascending_ascending, strictly_ascending_singleton.
      - done. }
    rewrite <- Eh in *.
    destruct (closest_exact h v Hs) as (i & y & E & Hy & Hmin).
    { rewrite Eh. done. }
    rewrite E. cbn [obind]. rewrite (at_index_lookup _ _ _ Hy). cbn [obind exact_arith ar_eq ar_lt ar_ge].
    pose proof (lookup_lt_Some _ _ _ Hy) as Hi.
    assert (Hkey : forall l1 l2, h = l1 ++ l2 ->
      (forall a, a ∈ l1 -> a <= v) -> (forall a, a ∈ l2 -> v <= a) ->
      ascending (l1 ++ v :: l2) /\ Permutation (l1 ++ v :: l2) (v :: h)).
    { intros l1 l2 -> Hl1 Hl2. apply ascending_split in Hs as (H1 & H2 & H3). split.
      - apply ascending_split. split; [done|]. split.
        + change (v :: l2) with ([v] ++ l2). apply ascending_split. split; [|split; [done|]].
          * by apply strictly_ascending_ascending, strictly_ascending_singleton.
          * intros a b Ha Hb. apply elem_of_list_singleton in Ha. subst. auto.
        + intros a b Ha Hb. apply elem_of_cons in Hb as [-> |Hb]; auto.
      - symmetry. apply Permutation_middle. }
    destruct (Z.leb_spec y v) as [Hle|Hgt].
    - replace (Z.of_nat i + 1) with (Z.of_nat (S i)) by lia.
      destruct (insert_middle_Ret h (S i) v ltac:(lia)) as (l1 & l2 & Ehl & Hl1 & Er).
      rewrite Er. exists (l1 ++ v :: l2). split; [done|]. apply Hkey; [done| |].
      + intros a Ha. apply elem_of_list_lookup in Ha as [j Hj].
        pose proof (lookup_lt_Some _ _ _ Hj).
        assert (Hj' : h !! j = Some a) by (rewrite Ehl; by apply lookup_app_l_Some).
        destruct (decide (j = i)) as [-> |].
        * assert (a = y) by congruence. lia.
        * pose proof (Hs j i a y ltac:(lia) Hj' Hy). lia.
      + intros a Ha. apply elem_of_list_lookup in Ha as [j Hj].
        assert (Hj' : h !! (length l1 + j)%nat = Some a) by (rewrite Ehl; by rewrite lookup_app_plus).
        pose proof (Hs i (length l1 + j)%nat y a ltac:(lia) Hy Hj').
        destruct Hcase as [Hin|Hst].
        * apply elem_of_list_lookup in Hin as [k Hk]. pose proof (Hmin _ _ Hk). lia.
        * pose proof (Hst i (length l1 + j)%nat y a ltac:(lia) Hy Hj').
          pose proof (Hmin _ _ Hj'). lia.
    - destruct (insert_middle_Ret h i v ltac:(lia)) as (l1 & l2 & Ehl & Hl1 & Er).
      rewrite Er. exists (l1 ++ v :: l2). split; [done|]. apply Hkey; [done| |].
      + intros a Ha. apply elem_of_list_lookup in Ha as [j Hj].
        pose proof (lookup_lt_Some _ _ _ Hj).
        assert (Hj' : h !! j = Some a) by (rewrite Ehl; by apply lookup_app_l_Some).
        pose proof (Hs j i a y ltac:(lia) Hj' Hy).
        destruct Hcase as [Hin|Hst].
        * apply elem_of_list_lookup in Hin as [k Hk]. pose proof (Hmin _ _ Hk). lia.
        * pose proof (Hst j i a y ltac:(lia) Hj' Hy).
          pose proof (Hmin _ _ Hj'). lia.
      + intros a Ha. apply elem_of_list_lookup in Ha as [j Hj].
        assert (Hj' : h !! (length l1 + j)%nat = Some a) by (rewrite Ehl; by rewrite lookup_app_plus).
        destruct (decide (length l1 + j = i)%nat) as [Eq|].
        * rewrite Eq in Hj'. assert (a = y) by congruence. lia.
        * pose proof (Hs i (length l1 + j)%nat y a ltac:(lia) Hy Hj'). lia.
  Qed.
End ExactInsertions.

(** ** A type that is seen as the integers *)
Section Sim.
  Context {T : Type} (A : arith T) (phi : T -> Z) (h : list T) (x : T).
  Hypothesis Heq : forall y, y ∈ h -> ar_eq A x y = (phi x =? phi y).
  Hypothesis Hlt1 : forall y, y ∈ h -> ar_lt A x y = (phi x <? phi y).
  Hypothesis Hlt2 : forall y, y ∈ h -> ar_lt A y x = (phi y <? phi x).
  Hypothesis Hge : forall y, y ∈ h -> ar_ge A x y = (phi y <=? phi x).
  Hypothesis Hdev : forall y z, y ∈ h -> z ∈ h ->
    ar_lt A (ar_dev A y x) (ar_dev A z x) = (Z.abs (phi y - phi x) <? Z.abs (phi z - phi x)).
  Hypothesis Hzero : forall y, y ∈ h -> ar_eq A (ar_dev A y x) (ar_zero A) = (Z.abs (phi y - phi x) =? 0).

  Lemma closest_loop_sim : forall fuel a b mi v, v ∈ h ->
    closest_loop_g A fuel h x a b mi (ar_dev A v x) =
    closest_loop_g exact_arith fuel (map phi h) (phi x) a b mi (Z.abs (phi v - phi x)).
  Proof.
    induction fuel as [|fuel IH]; intros a b mi v Hv; [done|]. cbn [closest_loop_g].
    destruct (a <? b)%nat; [|done]. rewrite list_lookup_fmap.
    destruct (h !! _) as [hm|] eqn:Ehm; [|done]. cbn [fmap option_fmap option_map].
    apply elem_of_list_lookup_2 in Ehm. rewrite (Heq hm Ehm), (Hlt1 hm Ehm), (Hdev hm v Ehm Hv).
    cbn [exact_arith ar_eq ar_lt ar_dev].
    destruct (phi x =? phi hm); [done|].
    destruct (_ <? Z.abs (phi v - phi x)); destruct (phi x <? phi hm);
      (destruct (_ =? _)%nat; [done|by apply IH]).
  Qed.

  Lemma closest_sim : closest_g A h x = closest_g exact_arith (map phi h) (phi x).
  Proof.
    unfold closest_g. destruct h as [|h0 tl] eqn:Eh; [done|]. rewrite <- Eh in *.
    replace (match map phi h with [] => Ret (-1) | _ => _ end) with
      (let b := (length (map phi h) - 1)%nat in
       match map phi h !! 0%nat, map phi h !! b with
       | Some ha, Some hb =>
         let aD := ar_dev exact_arith ha (phi x) in
         let bD := ar_dev exact_arith hb (phi x) in
         let '(minDIndex, minD) := if ar_lt exact_arith bD aD then (b, bD) else (0%nat, aD) in
         if ar_eq exact_arith minD (ar_zero exact_arith) then Ret (Z.of_nat minDIndex)
         else closest_loop_g exact_arith (S (length (map phi h))) (map phi h) (phi x) 0 b minDIndex minD
       | _, _ => Panic
       end) by (by rewrite Eh).
    cbv zeta. rewrite !list_lookup_fmap, map_length.
    destruct (h !! 0%nat) as [ha|] eqn:Ea; [|done].
    destruct (h !! (length h - 1)%nat) as [hb|] eqn:Eb; [|done].
    apply elem_of_list_lookup_2 in Ea, Eb. cbn [fmap option_fmap option_map].
    rewrite (Hdev hb ha Eb Ea). cbn [exact_arith ar_eq ar_lt ar_dev ar_zero].
    destruct (_ <? _).
    - rewrite (Hzero hb Eb). destruct (_ =? 0); [done|]. by apply closest_loop_sim.
    - rewrite (Hzero ha Ea). destruct (_ =? 0); [done|]. by apply closest_loop_sim.
  Qed.

  Lemma at_index_map i : at_index (map phi h) i = obind (at_index h i) (fun y => Ret (phi y)).
  Proof.
    unfold at_index. destruct (i <? 0); [done|]. rewrite list_lookup_fmap. by destruct (h !! _).
  Qed.

  Lemma insert_at_map i (v : T) : insert_at (map phi h) i (phi v) = obind (insert_at h i v) (fun r => Ret (map phi r)).
  Proof.
    unfold insert_at. rewrite map_length. destruct (_ =? i); [cbn [obind]; by rewrite map_app|].
    destruct (_ && _); [|done]. cbn [obind]. f_equal.
    rewrite <- !fmap_take, <- !fmap_drop, <- fmap_app. symmetry. apply list_fmap_insert.
  Qed.

  Lemma at_index_in i y : at_index h i = Ret y -> y ∈ h.
  Proof.
    unfold at_index. destruct (i <? 0); [done|]. destruct (h !! _) as [z|] eqn:E; [|done].
    intros [= <-]. by eapply elem_of_list_lookup_2.
  Qed.

  Lemma put_sim : put_saving_order_g exact_arith (map phi h) (phi x) =
    obind (put_saving_order_g A h x) (fun r => Ret (map phi r)).
  Proof.
    unfold put_saving_order_g. destruct h as [|h0 tl] eqn:Eh; [done|]. rewrite <- Eh in *.
    replace (match map phi h with [] => Ret (map phi h ++ [phi x]) | _ => _ end) with
      (obind (closest_g exact_arith (map phi h) (phi x)) (fun index =>
       obind (at_index (map phi h) index) (fun hi =>
       if ar_eq exact_arith (phi x) hi then Ret (map phi h)
       else if ar_lt exact_arith hi (phi x) then insert_at (map phi h) (index + 1) (phi x)
       else insert_at (map phi h) index (phi x)))) by (by rewrite Eh).
    rewrite <- closest_sim. destruct (closest_g A h x) as [i|e| |]; [|done..]. cbn [obind].
    rewrite at_index_map. destruct (at_index h i) as [y|e| |] eqn:Ey; [|done..]. cbn [obind].
    apply at_index_in in Ey. rewrite (Heq y Ey), (Hlt2 y Ey). cbn [exact_arith ar_eq ar_lt].
    destruct (phi x =? phi y); [done|]. destruct (phi y <? phi x); by rewrite insert_at_map.
  Qed.

  Lemma insert_sim : insert_saving_order_g exact_arith (map phi h) (phi x) =
    obind (insert_saving_order_g A h x) (fun r => Ret (map phi r)).
  Proof.
    unfold insert_saving_order_g. destruct h as [|h0 tl] eqn:Eh; [done|]. rewrite <- Eh in *.
    replace (match map phi h with [] => Ret (map phi h ++ [phi x]) | _ => _ end) with
      (obind (closest_g exact_arith (map phi h) (phi x)) (fun index =>
       obind (at_index (map phi h) index) (fun hi =>
       if ar_ge exact_arith (phi x) hi then insert_at (map phi h) (index + 1) (phi x)
       else insert_at (map phi h) index (phi x)))) by (by rewrite Eh).
    rewrite <- closest_sim. destruct (closest_g A h x) as [i|e| |]; [|done..]. cbn [obind].
    rewrite at_index_map. destruct (at_index h i) as [y|e| |] eqn:Ey; [|done..]. cbn [obind].
    apply at_index_in in Ey. rewrite (Hge y Ey). cbn [exact_arith ar_ge].
    destruct (phi y <=? phi x); by rewrite insert_at_map.
  Qed.
End Sim.

(** ** Whatever the comparisons say *)
Section Any.
  Context {T : Type} (A : arith T) (h : list T) (x : T).

  Lemma closest_loop_any : forall fuel a b mi d, (b < length h)%nat -> (b - a < fuel)%nat -> (mi < length h)%nat ->
    exists i, closest_loop_g A fuel h x a b mi d = Ret (Z.of_nat i) /\ (i < length h)%nat.
  Proof.
    induction fuel as [|fuel IH]; intros a b mi d Hb Hf Hm; [lia|]. cbn [closest_loop_g].
    destruct (Nat.ltb_spec a b) as [Hab|Hab]; [|by exists mi].
    pose proof (half_bounds a b Hab) as Hh. set (m := ((a + b) / 2)%nat) in *.
    destruct (lookup_lt_is_Some_2 h m ltac:(lia)) as [hm Ehm]. rewrite Ehm.
    destruct (ar_eq A x hm); [exists m; split; [done|lia]|].
    destruct (ar_lt A _ d); destruct (ar_lt A x hm).
    - destruct (Nat.eqb_spec b m); [lia|]. apply IH; lia.
    - destruct (Nat.eqb_spec a m); [exists m; split; [done|lia]|]. apply IH; lia.
    - destruct (Nat.eqb_spec b m); [lia|]. apply IH; lia.
    - destruct (Nat.eqb_spec a m); [by exists mi|]. apply IH; lia.
  Qed.

  Lemma closest_any : h <> [] -> exists i, closest_g A h x = Ret (Z.of_nat i) /\ (i < length h)%nat.
  Proof.
    intros Hne. unfold closest_g. destruct h as [|h0 tl] eqn:Eh; [done|]. rewrite <- Eh in *.
    assert (Hlen : (0 < length h)%nat) by (rewrite Eh; simpl; lia).
    destruct (lookup_lt_is_Some_2 h (length h - 1)%nat ltac:(lia)) as [hb Eb].
    destruct (lookup_lt_is_Some_2 h 0%nat ltac:(lia)) as [ha Ea]. rewrite Eb, Ea.
    destruct (ar_lt A _ _); (destruct (ar_eq A _ _); [eexists; split; [done|lia]|apply closest_loop_any; lia]).
  Qed.

  Lemma insert_any : exists l1 l2, h = l1 ++ l2 /\ insert_saving_order_g A h x = Ret (l1 ++ x :: l2).
  Proof.
    unfold insert_saving_order_g. destruct h as [|h0 tl] eqn:Eh; [by exists [], []|]. rewrite <- Eh in *.
    destruct closest_any as (i & -> & Hi); [by rewrite Eh|]. cbn [obind].
    destruct (lookup_lt_is_Some_2 h i Hi) as [y Hy]. rewrite (at_index_lookup _ _ _ Hy). cbn [obind].
    replace (Z.of_nat i + 1) with (Z.of_nat (S i)) by lia.
    destruct (ar_ge A x y).
    - destruct (insert_middle_Ret h (S i) x ltac:(lia)) as (l1 & l2 & E & _ & Er). by exists l1, l2.
    - destruct (insert_middle_Ret h i x ltac:(lia)) as (l1 & l2 & E & _ & Er). by exists l1, l2.
  Qed.

  Lemma put_any : (put_saving_order_g A h x = Ret h /\ exists y, y ∈ h /\ ar_eq A x y = true) \/
    exists l1 l2, h = l1 ++ l2 /\ put_saving_order_g A h x = Ret (l1 ++ x :: l2).
  Proof.
    unfold put_saving_order_g. destruct h as [|h0 tl] eqn:Eh; [by right; exists [], []|]. rewrite <- Eh in *.
    destruct closest_any as (i & -> & Hi); [by rewrite Eh|]. cbn [obind].
    destruct (lookup_lt_is_Some_2 h i Hi) as [y Hy]. rewrite (at_index_lookup _ _ _ Hy). cbn [obind].
    replace (Z.of_nat i + 1) with (Z.of_nat (S i)) by lia.
    destruct (ar_eq A x y) eqn:E1; [left; split; [done|]; exists y; split; [by eapply elem_of_list_lookup_2|done]|right].
    destruct (ar_lt A y x).
    - destruct (insert_middle_Ret h (S i) x ltac:(lia)) as (l1 & l2 & E & _ & Er). by exists l1, l2.
    - destruct (insert_middle_Ret h i x ltac:(lia)) as (l1 & l2 & E & _ & Er). by exists l1, l2.
  Qed.
End Any.

(** BinaryIndexOf needs the comparisons only. *)
Lemma bin_loop_sim {T} (eqb ltb : T -> T -> bool) (phi : T -> Z) (h : list T) (x : T) :
  (forall y, y ∈ h -> eqb x y = (phi x =? phi y)) -> (forall y, y ∈ h -> ltb x y = (phi x <? phi y)) ->
  forall fuel a b, bin_loop eqb ltb fuel h x a b = bin_loop Z.eqb Z.ltb fuel (map phi h) (phi x) a b.
Proof.
  intros Heq Hlt. induction fuel as [|fuel IH]; intros a b; [done|]. cbn [bin_loop].
  destruct (a <? b)%nat; [|done]. rewrite list_lookup_fmap. destruct (h !! _) as [hm|] eqn:E; [|done].
  cbn [fmap option_fmap option_map]. apply elem_of_list_lookup_2 in E. rewrite (Heq hm E), (Hlt hm E).
  destruct (_ =? _); [done|]. destruct (_ <? _); (destruct (_ =? _)%nat; [done|apply IH]).
Qed.

Lemma binary_index_sim {T} (eqb ltb : T -> T -> bool) (phi : T -> Z) (h : list T) (x : T) :
  (forall y, y ∈ h -> eqb x y = (phi x =? phi y)) -> (forall y, y ∈ h -> eqb y x = (phi y =? phi x)) ->
  (forall y, y ∈ h -> ltb x y = (phi x <? phi y)) ->
  binary_index_of eqb ltb h x = binary_index_of Z.eqb Z.ltb (map phi h) (phi x).
Proof.
  intros Heq1 Heq2 Hlt. unfold binary_index_of. destruct h as [|h0 tl] eqn:Eh; [done|]. rewrite <- Eh in *.
  replace (match map phi h with [] => Ret (-1) | _ => _ end) with
    (let b := (length (map phi h) - 1)%nat in
     match map phi h !! b, map phi h !! 0%nat with
     | Some hb, Some ha =>
       if hb =? phi x then Ret (Z.of_nat b) else if ha =? phi x then Ret 0
       else bin_loop Z.eqb Z.ltb (S (length (map phi h))) (map phi h) (phi x) 0 b
     | _, _ => Panic
     end) by (by rewrite Eh).
  cbv zeta. rewrite !list_lookup_fmap, map_length.
  destruct (h !! (length h - 1)%nat) as [hb|] eqn:Eb; [|done].
  destruct (h !! 0%nat) as [ha|] eqn:Ea; [|done]. apply elem_of_list_lookup_2 in Ea, Eb.
  cbn [fmap option_fmap option_map]. rewrite (Heq2 hb Eb), (Heq2 ha Ea).
  destruct (phi hb =? phi x); [done|]. destruct (phi ha =? phi x); [done|]. by apply bin_loop_sim.
Qed.

(** ** Floats as integers *)
Section FloatInt.
  Context (prec emax : Z) {Hp : Prec_gt_0 prec} {He : Prec_lt_emax prec emax}.
  Notation fl := (binary_float prec emax).
  Notation emin := (SpecFloat.emin prec emax).
  Notation fexp := (SpecFloat.fexp prec emax).

  (** The finite floats are the multiples of the smallest one. *)
  Definition f_int (x : fl) : Z :=
    match x with
    | B754_finite s m e _ => cond_Zopp s (Zpos m) * 2 ^ (e - emin)
    | B754_infinity s => cond_Zopp s (2 ^ (emax - emin))
    | _ => 0
    end.

  Lemma bounded_emin m e : SpecFloat.bounded prec emax m e = true -> emin <= e.
  Proof.
    intros H. apply andb_prop in H as [H _]. apply Zeq_bool_eq in H.
    unfold SpecFloat.fexp in H. lia.
  Qed.

  Lemma f_int_B2R x : is_finite x = true -> B2R x = (IZR (f_int x) * bpow radix2 emin)%R.
  Proof.
    destruct x as [s|s| |s m e B]; cbn [is_finite B2R f_int]; try done; intros _.
    - by rewrite Rmult_0_l.
    - unfold F2R. cbn [Fnum Fexp]. rewrite mult_IZR. apply bounded_emin in B.
      change (IZR (2 ^ (e - emin))) with (IZR (Zpower radix2 (e - emin))). rewrite IZR_Zpower by lia.
      rewrite Rmult_assoc, <- bpow_plus. do 2 f_equal. lia.
  Qed.

  Lemma f_int_lt x y : is_finite x = true -> is_finite y = true ->
    (f_int x < f_int y <-> (B2R x < B2R y)%R).
  Proof.
    intros Hx Hy. rewrite (f_int_B2R x Hx), (f_int_B2R y Hy). pose proof (bpow_gt_0 radix2 emin) as Hb. split.
    - intros H. apply Rmult_lt_compat_r; [done|]. by apply IZR_lt.
    - intros H. apply Rmult_lt_reg_r in H; [|done]. by apply lt_IZR.
  Qed.

  Lemma f_int_le x y : is_finite x = true -> is_finite y = true ->
    (f_int x <= f_int y <-> (B2R x <= B2R y)%R).
  Proof.
    intros Hx Hy. pose proof (f_int_lt y x Hy Hx) as H. split; intros H'.
    - apply Rnot_lt_le. intros H''. apply H in H''. lia.
    - apply Znot_gt_le. intros H''. apply Rle_not_lt in H'. apply H', H. lia.
  Qed.

  Lemma f_int_eq x y : is_finite x = true -> is_finite y = true ->
    (f_int x = f_int y <-> B2R x = B2R y).
  Proof.
    intros Hx Hy. pose proof (f_int_le x y Hx Hy). pose proof (f_int_le y x Hy Hx). split; intros E.
    - apply Rle_antisym; [apply H|apply H0]; lia.
    - assert (f_int x <= f_int y) by (apply H; lra). assert (f_int y <= f_int x) by (apply H0; lra). lia.
  Qed.

  (** Also for infinities. *)
  Lemma emin_lt_emax : emin < emax.
  Proof. unfold SpecFloat.emin. pose proof Hp as H1. pose proof He as H2. unfold Prec_gt_0, Prec_lt_emax in *. lia. Qed.

  Lemma f_int_bound x : is_finite x = true -> - 2 ^ (emax - emin) < f_int x < 2 ^ (emax - emin).
  Proof.
    intros Hx. pose proof (abs_B2R_lt_emax prec emax x) as H. rewrite (f_int_B2R x Hx) in H.
    rewrite Rabs_mult, (Rabs_pos_eq (bpow _ _)) in H by apply bpow_ge_0.
    replace (bpow radix2 emax) with (bpow radix2 (emax - emin) * bpow radix2 emin)%R in H
      by (rewrite <- bpow_plus; f_equal; lia).
    apply Rmult_lt_reg_r in H; [|apply bpow_gt_0].
    rewrite <- IZR_Zpower in H by (pose proof emin_lt_emax; lia). rewrite <- abs_IZR in H. apply lt_IZR in H.
    change (Zpower radix2 (emax - emin)) with (2 ^ (emax - emin)) in H. lia.
  Qed.

  Lemma f_lt_int x y : is_nan x = false -> is_nan y = false -> Bltb x y = (f_int x <? f_int y).
  Proof.
    intros Hx Hy.
    assert (Hpos : 0 < 2 ^ (emax - emin)) by (pose proof emin_lt_emax; apply Z.pow_pos_nonneg; lia).
    destruct (is_finite x) eqn:Fx, (is_finite y) eqn:Fy.
    - rewrite Bltb_correct by done. pose proof (f_int_lt x y Fx Fy) as H.
      destruct (Rlt_bool_spec (B2R x) (B2R y)) as [L|L]; symmetry.
      + apply Z.ltb_lt. by apply H.
      + apply Z.ltb_ge. by apply f_int_le.
    - pose proof (f_int_bound x Fx) as B. destruct y as [?|s| |?]; try done.
      destruct x as [?|?| |?]; try done; destruct s; cbn [f_int cond_Zopp] in *; symmetry;
        first [apply Z.ltb_lt; lia|apply Z.ltb_ge; lia].
    - pose proof (f_int_bound y Fy) as B. destruct x as [?|s| |?]; try done.
      destruct y as [?|?| |?]; try done; destruct s; cbn [f_int cond_Zopp] in *; symmetry;
        first [apply Z.ltb_lt; lia|apply Z.ltb_ge; lia].
    - destruct x as [?|[]| |?], y as [?|[]| |?]; try done; cbn [f_int cond_Zopp]; symmetry;
        first [apply Z.ltb_lt; lia|apply Z.ltb_ge; lia].
  Qed.

  Lemma f_eq_int x y : is_nan x = false -> is_nan y = false -> Beqb x y = (f_int x =? f_int y).
  Proof.
    intros Hx Hy.
    assert (Hpos : 0 < 2 ^ (emax - emin)) by (pose proof emin_lt_emax; apply Z.pow_pos_nonneg; lia).
    destruct (is_finite x) eqn:Fx, (is_finite y) eqn:Fy.
    - rewrite Beqb_correct by done. pose proof (f_int_eq x y Fx Fy) as H.
      destruct (Req_bool_spec (B2R x) (B2R y)) as [L|L]; symmetry.
      + apply Z.eqb_eq. by apply H.
      + apply Z.eqb_neq. by rewrite H.
    - pose proof (f_int_bound x Fx) as B. destruct y as [?|s| |?]; try done.
      destruct x as [?|?| |?]; try done; destruct s; cbn [f_int cond_Zopp] in *; symmetry; apply Z.eqb_neq; lia.
    - pose proof (f_int_bound y Fy) as B. destruct x as [?|s| |?]; try done.
      destruct y as [?|?| |?]; try done; destruct s; cbn [f_int cond_Zopp] in *; symmetry; apply Z.eqb_neq; lia.
    - destruct x as [?|[]| |?], y as [?|[]| |?]; try done; cbn [f_int cond_Zopp]; symmetry;
        first [apply Z.eqb_eq; lia|apply Z.eqb_neq; lia].
  Qed.

  Lemma f_ge_int x y : is_finite x = true -> is_finite y = true -> Bleb y x = (f_int y <=? f_int x).
  Proof.
    intros Fx Fy. rewrite Bleb_correct by done. destruct (Rle_bool_spec (B2R y) (B2R x)) as [L|L]; symmetry.
    - apply Z.leb_le. by apply f_int_le.
    - apply Z.leb_gt. by apply f_int_lt.
  Qed.

  Lemma finite_not_nan (x : fl) : is_finite x = true -> is_nan x = false.
  Proof. by destruct x. Qed.

  (** The difference is a float. *)
  Definition exact_difference (x y : fl) : Prop :=
    exists d : fl, is_finite d = true /\ B2R d = Rabs (B2R x - B2R y).

  Lemma minus_exact (x y d : fl) : is_finite x = true -> is_finite y = true -> is_finite d = true ->
    B2R d = (B2R x - B2R y)%R -> B2R (Bminus mode_NE x y) = B2R d /\ is_finite (Bminus mode_NE x y) = true.
  Proof.
    intros Fx Fy Fd E. pose proof (Bminus_correct prec emax _ _ mode_NE x y Fx Fy) as H. rewrite <- E in H.
    rewrite round_generic in H; [|apply valid_rnd_round_mode|apply generic_format_B2R].
    rewrite Rlt_bool_true in H by apply abs_B2R_lt_emax. by destruct H as (? & ? & _).
  Qed.

  Lemma deviation_exact_f x y : is_finite x = true -> is_finite y = true -> exact_difference x y ->
    is_finite (deviation_f prec emax x y) = true /\ f_int (deviation_f prec emax x y) = Z.abs (f_int x - f_int y).
  Proof.
    intros Fx Fy (d & Fd & Ed).
    assert (H : is_finite (deviation_f prec emax x y) = true /\
      B2R (deviation_f prec emax x y) = Rabs (B2R x - B2R y)).
    { unfold deviation_f. rewrite Bltb_correct by done. destruct (Rlt_bool_spec (B2R x) (B2R y)) as [L|L].
      - destruct (minus_exact y x d Fy Fx Fd) as [H1 H2]; [|by rewrite H1].
        rewrite Ed, Rabs_left by lra. lra.
      - destruct (minus_exact x y d Fx Fy Fd) as [H1 H2]; [|by rewrite H1].
        rewrite Ed, Rabs_pos_eq by lra. lra. }
    destruct H as [H1 H2]. split; [done|].
    rewrite (f_int_B2R _ H1), (f_int_B2R x Fx), (f_int_B2R y Fy) in H2.
    rewrite <- Rmult_minus_distr_r, Rabs_mult, (Rabs_pos_eq (bpow _ _)) in H2 by apply bpow_ge_0.
    apply Rmult_eq_reg_r in H2; [|pose proof (bpow_gt_0 radix2 emin); lra].
    rewrite <- minus_IZR, <- abs_IZR in H2. by apply eq_IZR in H2.
  Qed.

  (** The hypotheses of [Sim]. *)
  Section List.
    Context (h : list fl) (x : fl).
    Hypothesis Fh : Forall (fun y => is_finite y = true) h.
    Hypothesis Fx : is_finite x = true.
    Hypothesis Hd : Forall (fun y => exact_difference y x) h.

    Let fin y : y ∈ h -> is_finite y = true.
    Proof. rewrite Forall_forall in Fh. apply Fh. Qed.
    Let dif y : y ∈ h -> exact_difference y x.
    Proof. rewrite Forall_forall in Hd. apply Hd. Qed.

    Lemma sim_dev y z : y ∈ h -> z ∈ h ->
      ar_lt (float_arith prec emax) (deviation_f prec emax y x) (deviation_f prec emax z x) =
      (Z.abs (f_int y - f_int x) <? Z.abs (f_int z - f_int x)).
    Proof.
      intros Hy Hz. destruct (deviation_exact_f y x (fin y Hy) Fx (dif y Hy)) as [Fy <-].
      destruct (deviation_exact_f z x (fin z Hz) Fx (dif z Hz)) as [Fz <-].
      apply f_lt_int; by apply finite_not_nan.
    Qed.
    Lemma sim_zero y : y ∈ h ->
      ar_eq (float_arith prec emax) (deviation_f prec emax y x) (B754_zero false) = (Z.abs (f_int y - f_int x) =? 0).
    Proof.
      intros Hy. destruct (deviation_exact_f y x (fin y Hy) Fx (dif y Hy)) as [Fy <-].
      apply (f_eq_int _ (B754_zero false)); [by apply finite_not_nan|done].
    Qed.
    Lemma sim_eq y : y ∈ h -> ar_eq (float_arith prec emax) x y = (f_int x =? f_int y).
    Proof. intros Hy. apply f_eq_int; apply finite_not_nan; auto. Qed.
    Lemma sim_lt1 y : y ∈ h -> ar_lt (float_arith prec emax) x y = (f_int x <? f_int y).
    Proof. intros Hy. apply f_lt_int; apply finite_not_nan; auto. Qed.
    Lemma sim_lt2 y : y ∈ h -> ar_lt (float_arith prec emax) y x = (f_int y <? f_int x).
    Proof. intros Hy. apply f_lt_int; apply finite_not_nan; auto. Qed.
    Lemma sim_ge y : y ∈ h -> ar_ge (float_arith prec emax) x y = (f_int y <=? f_int x).
    Proof. intros Hy. apply f_ge_int; auto. Qed.

    Lemma closest_float : closest_g (float_arith prec emax) h x = closest_g exact_arith (map f_int h) (f_int x).
    Proof. apply closest_sim; [exact sim_eq|exact sim_lt1|exact sim_lt2|exact sim_ge|exact sim_dev|exact sim_zero]. Qed.
    Lemma put_float : put_saving_order_g exact_arith (map f_int h) (f_int x) =
      obind (put_saving_order_g (float_arith prec emax) h x) (fun r => Ret (map f_int r)).
    Proof. apply put_sim; [exact sim_eq|exact sim_lt1|exact sim_lt2|exact sim_ge|exact sim_dev|exact sim_zero]. Qed.
    Lemma insert_float : insert_saving_order_g exact_arith (map f_int h) (f_int x) =
      obind (insert_saving_order_g (float_arith prec emax) h x) (fun r => Ret (map f_int r)).
    Proof. apply insert_sim; [exact sim_eq|exact sim_lt1|exact sim_lt2|exact sim_ge|exact sim_dev|exact sim_zero]. Qed.
  End List.
End FloatInt.
