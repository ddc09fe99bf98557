(** Proofs about the model of internal/helpers/arrays.go. *)
From Verif Require Import Base Arrays Spec.

Lemma lookup_app_plus {T} (l1 l2 : list T) j : (l1 ++ l2) !! (length l1 + j)%nat = l2 !! j.
Proof. rewrite lookup_app_r by lia. f_equal. lia. Qed.

Lemma half_bounds a b : (a < b)%nat -> (a <= (a + b) / 2 < b)%nat.
Proof.
  intros H. split.
  - apply Nat.div_le_lower_bound; lia.
  - apply Nat.div_lt_upper_bound; lia.
Qed.

Lemma half_left a b : (a < b)%nat -> a = ((a + b) / 2)%nat -> b = S a.
Proof.
  intros H E. pose proof (Nat.div_mod (a + b) 2 ltac:(lia)) as D.
  pose proof (Nat.mod_upper_bound (a + b) 2 ltac:(lia)). lia.
Qed.

(** ** BinaryIndexOf *)

Section BinaryIndexOf.
  Context {T : Type} (eqb ltb : T -> T -> bool) (O : total_order eqb ltb).

  Lemma eqb_false_neq x y : eqb x y = false -> x <> y.
  Proof. intros H ->. assert (eqb y y = true) by (by apply (to_eqb _ _ O)). congruence. Qed.

  Lemma bin_loop_spec h x :
    ascending_by ltb h ->
    forall fuel a b,
    (b < length h)%nat -> (b - a < fuel)%nat ->
    (forall i, h !! i = Some x -> (a < i < b)%nat) ->
    exists z, bin_loop eqb ltb fuel h x a b = Ret z /\
      ((exists i, z = Z.of_nat i /\ h !! i = Some x) \/
       (z = -1 /\ forall i, h !! i <> Some x)).
  Proof.
    intros Hs fuel. induction fuel as [|fuel IH]; intros a b Hb Hf Hin; [lia|].
    cbn [bin_loop].
    destruct (Nat.ltb_spec a b) as [Hab|Hab].
    2:{ eexists; split; [reflexivity|]. right; split; [done|].
        intros i Hi. specialize (Hin i Hi). lia. }
    pose proof (half_bounds a b Hab) as Hm.
    set (m := ((a + b) / 2)%nat) in *.
    destruct (lookup_lt_is_Some_2 h m ltac:(lia)) as [hm Ehm]. rewrite Ehm.
    destruct (eqb x hm) eqn:E1.
    { apply (to_eqb _ _ O) in E1. subst hm. eexists; split; [reflexivity|].
      left. eauto. }
    apply eqb_false_neq in E1.
    destruct (ltb x hm) eqn:E2.
    - replace (b =? m)%nat with false by (symmetry; apply Nat.eqb_neq; lia).
      apply IH; [lia|lia|]. intros i Hi. specialize (Hin i Hi). split; [lia|].
      destruct (Nat.lt_trichotomy i m) as [?|[-> |Hlt]]; [done|congruence|].
      pose proof (Hs m i hm x Hlt Ehm Hi). congruence.
    - assert (Hx : ltb hm x = true).
      { destruct (to_total _ _ O x hm) as [?|[?|?]]; congruence. }
      assert (Hgt : forall i, h !! i = Some x -> (m < i)%nat).
      { intros i Hi. destruct (Nat.lt_trichotomy i m) as [Hlt|[-> |?]]; [|congruence|done].
        pose proof (Hs i m x hm Hlt Hi Ehm). congruence. }
      destruct (Nat.eqb_spec a m) as [Ham|Ham].
      + eexists; split; [reflexivity|]. right; split; [done|].
        intros i Hi. specialize (Hgt i Hi). specialize (Hin i Hi).
        pose proof (half_left a b Hab Ham). lia.
      + apply IH; [lia|lia|]. intros i Hi. specialize (Hgt i Hi). specialize (Hin i Hi). lia.
  Qed.

  Lemma binary_index_of_spec h x :
    ascending_by ltb h ->
    exists z, binary_index_of eqb ltb h x = Ret z /\
      ((exists i, z = Z.of_nat i /\ h !! i = Some x) \/
       (z = -1 /\ forall i, h !! i <> Some x)).
  Proof.
    intros Hs. unfold binary_index_of.
    destruct h as [|h0 t] eqn:Eh.
    { eexists; split; [reflexivity|]. right. split; [done|]. intros i. by rewrite lookup_nil. }
    rewrite <- Eh in *.
    assert (Hlen : (0 < length h)%nat) by (subst h; simpl; lia).
    destruct (lookup_lt_is_Some_2 h (length h - 1)%nat ltac:(lia)) as [hb Eb].
    destruct (lookup_lt_is_Some_2 h 0%nat ltac:(lia)) as [ha Ea].
    rewrite Eb, Ea.
    destruct (eqb hb x) eqn:E1.
    { apply (to_eqb _ _ O) in E1. subst hb. eexists; split; [reflexivity|]. left; eauto. }
    destruct (eqb ha x) eqn:E2.
    { apply (to_eqb _ _ O) in E2. subst ha. eexists; split; [reflexivity|]. left; exists 0%nat; eauto. }
    apply eqb_false_neq in E1, E2.
    apply bin_loop_spec; [done|lia|lia|].
    intros i Hi. pose proof (lookup_lt_Some _ _ _ Hi).
    assert (i <> 0)%nat by (intros ->; congruence).
    assert (i <> length h - 1)%nat by (intros ->; congruence). lia.
  Qed.

  Lemma binary_index_of_found h x :
    ascending_by ltb h -> x ∈ h ->
    exists i, binary_index_of eqb ltb h x = Ret (Z.of_nat i) /\ h !! i = Some x.
  Proof.
    intros Hs Hin. destruct (binary_index_of_spec h x Hs) as (z & E & [(i & -> & Hi)|[-> Hn]]).
    - eauto.
    - apply elem_of_list_lookup in Hin as [i Hi]. by destruct (Hn i).
  Qed.

  Lemma binary_index_of_absent h x :
    ascending_by ltb h -> x ∉ h -> binary_index_of eqb ltb h x = Ret (-1).
  Proof.
    intros Hs Hin. destruct (binary_index_of_spec h x Hs) as (z & E & [(i & -> & Hi)|[-> Hn]]).
    - apply elem_of_list_lookup_2 in Hi. done.
    - done.
  Qed.
End BinaryIndexOf.

Lemma Z_total_order : total_order Z.eqb Z.ltb.
Proof.
  split.
  - apply Z.eqb_eq.
  - apply Z.ltb_irrefl.
  - intros x y z H1 H2. apply Z.ltb_lt in H1, H2. apply Z.ltb_lt. lia.
  - intros x y. rewrite !Z.ltb_lt. lia.
Qed.

Lemma ascending_by_Z l : ascending_by Z.ltb l <-> ascending l.
Proof.
  split; intros H i j x y Hij Hx Hy; specialize (H i j x y Hij Hx Hy).
  - apply Z.ltb_ge in H. lia.
  - apply Z.ltb_ge. lia.
Qed.

Lemma strictly_ascending_ascending l : strictly_ascending l -> ascending l.
Proof. intros H i j x y Hij Hx Hy. pose proof (H i j x y Hij Hx Hy). lia. Qed.

(** ** Deviation *)

Lemma type_size t : 2 ^ bits t = tmax t - tmin t + 1.
Proof. by destruct t. Qed.

Lemma wrap_id t z : in_type t z -> wrap t z = z.
Proof.
  intros [H1 H2]. unfold wrap. rewrite Z.mod_small; [lia|].
  rewrite type_size. lia.
Qed.

Lemma deviation_abs t a b : in_type t (Z.abs (a - b)) -> deviation t a b = Z.abs (a - b).
Proof.
  intros H. unfold deviation. destruct (Z.ltb_spec a b).
  - rewrite wrap_id by (replace (b - a) with (Z.abs (a - b)) by lia; done). lia.
  - rewrite wrap_id by (replace (a - b) with (Z.abs (a - b)) by lia; done). lia.
Qed.

Lemma unsigned_abs_in_type t a b :
  unsigned t = true -> in_type t a -> in_type t b -> in_type t (Z.abs (a - b)).
Proof. intros U [A1 A2] [B1 B2]. assert (tmin t = 0) by (unfold tmin; by rewrite U). split; lia. Qed.

(** ** BinaryIndexOfClosest *)

Section Closest.
  Context (t : inttype) (h : list Z) (x : Z).
  Hypothesis Hs : ascending h.
  Hypothesis Hd : forall y, y ∈ h -> in_type t (Z.abs (y - x)).

  Let dev i y : h !! i = Some y -> deviation t y x = Z.abs (y - x).
  Proof. intros Hy. apply deviation_abs, Hd. by eapply elem_of_list_lookup_2. Qed.

  Lemma closest_loop_spec fuel a b mi v :
    (b < length h)%nat -> (b - a < fuel)%nat -> h !! mi = Some v ->
    (forall i y, h !! i = Some y -> ~ (a < i < b)%nat -> Z.abs (v - x) <= Z.abs (y - x)) ->
    exists i y, closest_loop t fuel h x a b mi (Z.abs (v - x)) = Ret (Z.of_nat i) /\
      h !! i = Some y /\
      forall j z, h !! j = Some z -> Z.abs (y - x) <= Z.abs (z - x).
  Proof.
    revert a b mi v. induction fuel as [|fuel IH]; intros a b mi v Hb Hf Hv Hmin; [lia|].
    cbn [closest_loop].
    destruct (Nat.ltb_spec a b) as [Hab|Hab].
    2:{ exists mi, v; repeat split; try done. intros j z Hz. apply (Hmin j z Hz). lia. }
    pose proof (half_bounds a b Hab) as Hm.
    set (m := ((a + b) / 2)%nat) in *.
    destruct (lookup_lt_is_Some_2 h m ltac:(lia)) as [hm Ehm]. rewrite Ehm.
    destruct (Z.eqb_spec x hm) as [E1|E1].
    { subst hm. exists m, x. repeat split; [done|]. intros. lia. }
    rewrite (dev m hm Ehm).
    (* the best candidate so far, including position m *)
    assert (exists mi' v',
      (if Z.abs (hm - x) <? Z.abs (v - x) then (m, Z.abs (hm - x)) else (mi, Z.abs (v - x)))
        = (mi', Z.abs (v' - x)) /\ h !! mi' = Some v' /\
      Z.abs (v' - x) <= Z.abs (hm - x) /\ Z.abs (v' - x) <= Z.abs (v - x))
      as (mi' & v' & Epair & Hv' & Hle1 & Hle2).
    { destruct (Z.ltb_spec (Z.abs (hm - x)) (Z.abs (v - x))).
      - exists m, hm. repeat split; [done|lia|lia].
      - exists mi, v. repeat split; [done|lia|lia]. }
    rewrite Epair.
    destruct (Z.ltb_spec x hm) as [Hlt|Hge].
    - replace (b =? m)%nat with false by (symmetry; apply Nat.eqb_neq; lia).
      apply IH; [lia|lia|done|].
      intros i y Hi Hni.
      destruct (decide (m <= i)%nat) as [Hmi|Hmi].
      + destruct (decide (i = m)) as [-> |Hne].
        * rewrite Ehm in Hi. injection Hi as <-. lia.
        * pose proof (Hs m i hm y ltac:(lia) Ehm Hi). lia.
      + pose proof (Hmin i y Hi ltac:(lia)). lia.
    - assert (Hleft : forall i y, h !! i = Some y -> (i <= m)%nat -> Z.abs (v' - x) <= Z.abs (y - x)).
      { intros i y Hi Him. destruct (decide (i = m)) as [-> |Hne].
        * rewrite Ehm in Hi. injection Hi as <-. lia.
        * pose proof (Hs i m y hm ltac:(lia) Hi Ehm). lia. }
      destruct (Nat.eqb_spec a m) as [Ham|Ham].
      + pose proof (half_left a b Hab Ham).
        exists mi', v'. repeat split; [done|]. intros j z Hz.
        destruct (decide (j <= m)%nat); [by apply (Hleft j)|].
        pose proof (Hmin j z Hz ltac:(lia)). lia.
      + apply IH; [lia|lia|done|].
        intros i y Hi Hni. destruct (decide (i <= m)%nat); [by apply (Hleft i)|].
        pose proof (Hmin i y Hi ltac:(lia)). lia.
  Qed.

  Lemma closest_spec :
    h <> [] ->
    exists i y, binary_index_of_closest t h x = Ret (Z.of_nat i) /\
      h !! i = Some y /\
      forall j z, h !! j = Some z -> Z.abs (y - x) <= Z.abs (z - x).
  Proof.
    intros Hne. unfold binary_index_of_closest.
    destruct h as [|h0 tl] eqn:Eh; [done|]. rewrite <- Eh in *.
    assert (Hlen : (0 < length h)%nat) by (rewrite Eh; simpl; lia).
    destruct (lookup_lt_is_Some_2 h (length h - 1)%nat ltac:(lia)) as [hb Eb].
    destruct (lookup_lt_is_Some_2 h 0%nat ltac:(lia)) as [ha Ea].
    rewrite Eb, Ea, (dev _ _ Ea), (dev _ _ Eb).
    assert (exists mi v,
      (if Z.abs (hb - x) <? Z.abs (ha - x) then ((length h - 1)%nat, Z.abs (hb - x))
       else (0%nat, Z.abs (ha - x))) = (mi, Z.abs (v - x)) /\ h !! mi = Some v /\
       Z.abs (v - x) <= Z.abs (ha - x) /\ Z.abs (v - x) <= Z.abs (hb - x))
      as (mi & v & Epair & Hv & Hle1 & Hle2).
    { destruct (Z.ltb_spec (Z.abs (hb - x)) (Z.abs (ha - x))).
      - exists (length h - 1)%nat, hb. repeat split; [done|lia|lia].
      - exists 0%nat, ha. repeat split; [done|lia|lia]. }
    rewrite Epair.
    destruct (Z.eqb_spec (Z.abs (v - x)) 0) as [E0|E0].
    - exists mi, v. repeat split; [done|]. intros; lia.
    - apply closest_loop_spec; [lia|lia|done|].
      intros i y Hi Hni. pose proof (lookup_lt_Some _ _ _ Hi).
      assert (i = 0 \/ i = length h - 1)%nat as [-> | ->] by lia.
      + rewrite Ea in Hi. injection Hi as <-. lia.
      + rewrite Eb in Hi. injection Hi as <-. lia.
  Qed.
End Closest.

(** ** Insert and the two ordered insertions *)

Lemma at_index_lookup {T} (h : list T) i y :
  h !! i = Some y -> at_index h (Z.of_nat i) = Ret y.
Proof.
  intros H. unfold at_index.
  destruct (Z.ltb_spec (Z.of_nat i) 0); [lia|]. by rewrite Nat2Z.id, H.
Qed.

Lemma insert_at_app {T} (l1 l2 : list T) v :
  insert_at (l1 ++ l2) (Z.of_nat (length l1)) v = Ret (l1 ++ v :: l2).
Proof.
  unfold insert_at. rewrite app_length.
  destruct l2 as [|y l2].
  - cbn [length]. rewrite Nat.add_0_r, Z.eqb_refl. by rewrite app_nil_r.
  - cbn [length].
    destruct (Z.eqb_spec (Z.of_nat (length l1 + S (length l2))) (Z.of_nat (length l1))); [lia|].
    destruct (Z.leb_spec 0 (Z.of_nat (length l1))); [|lia].
    destruct (Z.ltb_spec (Z.of_nat (length l1)) (Z.of_nat (length l1 + S (length l2)))); [|lia].
    cbn [andb]. f_equal.
    replace (Z.to_nat (Z.of_nat (length l1) + 1)) with (length l1 + 1)%nat by lia.
    rewrite Nat2Z.id.
    rewrite (drop_app_alt l1 (y :: l2)) by done.
    rewrite take_add_app by done. cbn [take].
    rewrite <- app_assoc. cbn [app].
    by rewrite insert_app_r_alt, Nat.sub_diag by lia.
Qed.

Lemma split_at {T} (h : list T) i :
  (i <= length h)%nat -> exists l1 l2, h = l1 ++ l2 /\ length l1 = i.
Proof.
  intros H. exists (take i h), (drop i h). split; [by rewrite take_drop|].
  rewrite take_length. lia.
Qed.

Lemma lookup_mid {T} (l1 l2 : list T) y : (l1 ++ y :: l2) !! length l1 = Some y.
Proof. by rewrite list_lookup_middle. Qed.

Lemma insert_middle_Ret {T} (h : list T) i v :
  (i <= length h)%nat ->
  exists l1 l2, h = l1 ++ l2 /\ length l1 = i /\
    insert_at h (Z.of_nat i) v = Ret (l1 ++ v :: l2).
Proof.
  intros H. destruct (split_at h i H) as (l1 & l2 & -> & <-).
  exists l1, l2. repeat split. apply insert_at_app.
Qed.

Lemma ascending_split l1 l2 :
  ascending (l1 ++ l2) <->
  ascending l1 /\ ascending l2 /\ forall a b, a ∈ l1 -> b ∈ l2 -> a <= b.
Proof.
  split.
  - intros H. repeat split.
    + intros i j x y Hij Hx Hy. apply (H i j x y Hij).
      * by apply lookup_app_l_Some.
      * by apply lookup_app_l_Some.
    + intros i j x y Hij Hx Hy. apply (H (length l1 + i)%nat (length l1 + j)%nat x y); [lia| |].
      * by rewrite lookup_app_plus.
      * by rewrite lookup_app_plus.
    + intros a b Ha Hb. apply elem_of_list_lookup in Ha as [i Hi], Hb as [j Hj].
      pose proof (lookup_lt_Some _ _ _ Hi).
      apply (H i (length l1 + j)%nat a b); [lia| |].
      * by apply lookup_app_l_Some.
      * by rewrite lookup_app_plus.
  - intros (H1 & H2 & H3) i j x y Hij Hx Hy.
    apply lookup_app_Some in Hx as [Hx|[Hlx Hx]]; apply lookup_app_Some in Hy as [Hy|[Hly Hy]].
    + by apply (H1 i j).
    + apply H3; by eapply elem_of_list_lookup_2.
    + pose proof (lookup_lt_Some _ _ _ Hy). lia.
    + apply (H2 (i - length l1)%nat (j - length l1)%nat); [lia|done|done].
Qed.

Lemma strictly_ascending_split l1 l2 :
  strictly_ascending (l1 ++ l2) <->
  strictly_ascending l1 /\ strictly_ascending l2 /\ forall a b, a ∈ l1 -> b ∈ l2 -> a < b.
Proof.
  split.
  - intros H. repeat split.
    + intros i j x y Hij Hx Hy. apply (H i j x y Hij).
      * by apply lookup_app_l_Some.
      * by apply lookup_app_l_Some.
    + intros i j x y Hij Hx Hy. apply (H (length l1 + i)%nat (length l1 + j)%nat x y); [lia| |].
      * by rewrite lookup_app_plus.
      * by rewrite lookup_app_plus.
    + intros a b Ha Hb. apply elem_of_list_lookup in Ha as [i Hi], Hb as [j Hj].
      pose proof (lookup_lt_Some _ _ _ Hi).
      apply (H i (length l1 + j)%nat a b); [lia| |].
      * by apply lookup_app_l_Some.
      * by rewrite lookup_app_plus.
  - intros (H1 & H2 & H3) i j x y Hij Hx Hy.
    apply lookup_app_Some in Hx as [Hx|[Hlx Hx]]; apply lookup_app_Some in Hy as [Hy|[Hly Hy]].
    + by apply (H1 i j).
    + apply H3; by eapply elem_of_list_lookup_2.
    + pose proof (lookup_lt_Some _ _ _ Hy). lia.
    + apply (H2 (i - length l1)%nat (j - length l1)%nat); [lia|done|done].
Qed.

Lemma strictly_ascending_nil : strictly_ascending [].
Proof. intros i j x y _ H. by rewrite lookup_nil in H. Qed.

Lemma strictly_ascending_singleton v : strictly_ascending [v].
Proof.
  intros i j x y Hij Hx Hy. apply lookup_lt_Some in Hx, Hy. simpl in *. lia.
Qed.

Lemma strictly_ascending_cons v l :
  strictly_ascending (v :: l) <-> strictly_ascending l /\ forall a, a ∈ l -> v < a.
Proof.
  change (v :: l) with ([v] ++ l). rewrite strictly_ascending_split. split.
  - intros (_ & H2 & H3). split; [done|]. intros a Ha. apply H3; [by left|done].
  - intros (H2 & H3). split; [apply strictly_ascending_singleton|]. split; [done|].
    intros a b Ha Hb. apply elem_of_list_singleton in Ha. subst. auto.
Qed.

Lemma strictly_ascending_NoDup l : strictly_ascending l -> NoDup l.
Proof.
  intros H. apply NoDup_alt. intros i j x Hi Hj.
  destruct (Nat.lt_trichotomy i j) as [Hl|[Heq|Hl]]; [|done|].
  - pose proof (H i j x x Hl Hi Hj). lia.
  - pose proof (H j i x x Hl Hj Hi). lia.
Qed.

(** Two strictly ascending lists with the same elements are equal, so the
    element-wise specifications below determine the result. *)
Lemma strictly_ascending_ext l1 l2 :
  strictly_ascending l1 -> strictly_ascending l2 ->
  (forall y, y ∈ l1 <-> y ∈ l2) -> l1 = l2.
Proof.
  revert l2. induction l1 as [|a l1 IH]; intros l2 H1 H2 He.
  - destruct l2 as [|b l2]; [done|]. destruct (He b) as [_ H]. exfalso.
    by apply (not_elem_of_nil b), H; left.
  - destruct l2 as [|b l2].
    { destruct (He a) as [H _]. exfalso. apply (not_elem_of_nil a), H. left. }
    apply strictly_ascending_cons in H1 as [H1 Ha], H2 as [H2 Hb].
    assert (a = b) as ->.
    { destruct (He a) as [Hab _]. destruct (He b) as [_ Hba].
      specialize (Hab (elem_of_list_here _ _)). specialize (Hba (elem_of_list_here _ _)).
      apply elem_of_cons in Hab as [?|Hab]; [done|].
      apply elem_of_cons in Hba as [?|Hba]; [done|].
      apply Ha in Hba. apply Hb in Hab. lia. }
    f_equal. apply IH; [done|done|]. intros y. specialize (He y).
    rewrite !elem_of_cons in He. split; intros Hy.
    + destruct He as [He _]. destruct (He (or_intror Hy)) as [-> |?]; [|done].
      apply Ha in Hy. lia.
    + destruct He as [_ He]. destruct (He (or_intror Hy)) as [-> |?]; [|done].
      apply Hb in Hy. lia.
Qed.

Section Insertions.
  Context (t : inttype) (h : list Z) (v : Z).
  Hypothesis Hd : forall y, y ∈ h -> in_type t (Z.abs (y - v)).

  Lemma put_saving_order_spec :
    strictly_ascending h ->
    exists r, put_saving_order t h v = Ret r /\ strictly_ascending r /\
      (forall y, y ∈ r <-> y ∈ h \/ y = v) /\ (v ∈ h -> r = h).
  Proof.
    intros Hs. unfold put_saving_order. destruct h as [|h0 tl] eqn:Eh.
    { exists [v]. repeat split.
      - apply strictly_ascending_singleton.
      - rewrite elem_of_list_singleton. by right.
      - intros [H| ->]; [by apply elem_of_nil in H|]. by apply elem_of_list_singleton.
      - intros H. by apply elem_of_nil in H. }
    rewrite <- Eh in *.
    destruct (closest_spec t h v (strictly_ascending_ascending _ Hs) Hd) as (i & y & E & Hy & Hmin).
    { rewrite Eh. done. }
    rewrite E. cbn [obind]. rewrite (at_index_lookup _ _ _ Hy). cbn [obind].
    pose proof (lookup_lt_Some _ _ _ Hy) as Hi.
    destruct (Z.eqb_spec v y) as [-> |Hne].
    { exists h. repeat split; [done| |].
      - by left.
      - intros [Hq | ->]; [done|]. by eapply elem_of_list_lookup_2. }
    assert (Hnotin : v ∉ h).
    { intros Hin. apply elem_of_list_lookup in Hin as [j Hj]. specialize (Hmin j v Hj). lia. }
    destruct (Z.ltb_spec y v) as [Hlt|Hge].
    - replace (Z.of_nat i + 1) with (Z.of_nat (S i)) by lia.
      destruct (insert_middle_Ret h (S i) v ltac:(lia)) as (l1 & l2 & -> & Hl1 & Er).
      rewrite Er. exists (l1 ++ v :: l2). split; [done|].
      assert (Hl2 : forall a, a ∈ l2 -> v < a).
      { intros a Ha. apply elem_of_list_lookup in Ha as [j Hj].
        assert (Hj' : (l1 ++ l2) !! (length l1 + j)%nat = Some a) by (by rewrite lookup_app_plus).
        pose proof (Hs i (length l1 + j)%nat y a ltac:(lia) Hy Hj').
        pose proof (Hmin _ _ Hj'). lia. }
      assert (Hl1' : forall a, a ∈ l1 -> a < v).
      { intros a Ha. apply elem_of_list_lookup in Ha as [j Hj].
        pose proof (lookup_lt_Some _ _ _ Hj).
        assert (Hj' : (l1 ++ l2) !! j = Some a) by (by apply lookup_app_l_Some).
        destruct (decide (j = i)) as [-> |].
        - assert (a = y) by congruence. lia.
        - pose proof (Hs j i a y ltac:(lia) Hj' Hy). lia. }
      apply strictly_ascending_split in Hs as (H1 & H2 & H3).
      repeat split.
      + apply strictly_ascending_split. split; [done|]. split.
        * by apply strictly_ascending_cons.
        * intros a b Ha Hb. apply elem_of_cons in Hb as [-> |Hb]; auto.
      + rewrite !elem_of_app, elem_of_cons. tauto.
      + rewrite !elem_of_app, elem_of_cons. tauto.
      + done.
    - destruct (insert_middle_Ret h i v ltac:(lia)) as (l1 & l2 & -> & Hl1 & Er).
      rewrite Er. exists (l1 ++ v :: l2). split; [done|].
      assert (Hl2 : forall a, a ∈ l2 -> v < a).
      { intros a Ha. apply elem_of_list_lookup in Ha as [j Hj].
        assert (Hj' : (l1 ++ l2) !! (length l1 + j)%nat = Some a) by (by rewrite lookup_app_plus).
        destruct (decide (length l1 + j = i)%nat) as [Eq|].
        - rewrite Eq in Hj'. assert (a = y) by congruence. lia.
        - pose proof (Hs i (length l1 + j)%nat y a ltac:(lia) Hy Hj'). lia. }
      assert (Hl1' : forall a, a ∈ l1 -> a < v).
      { intros a Ha. apply elem_of_list_lookup in Ha as [j Hj].
        pose proof (lookup_lt_Some _ _ _ Hj).
        assert (Hj' : (l1 ++ l2) !! j = Some a) by (by apply lookup_app_l_Some).
        pose proof (Hs j i a y ltac:(lia) Hj' Hy).
        pose proof (Hmin _ _ Hj'). lia. }
      apply strictly_ascending_split in Hs as (H1 & H2 & H3).
      repeat split.
      + apply strictly_ascending_split. split; [done|]. split.
        * by apply strictly_ascending_cons.
        * intros a b Ha Hb. apply elem_of_cons in Hb as [-> |Hb]; auto.
      + rewrite !elem_of_app, elem_of_cons. tauto.
      + rewrite !elem_of_app, elem_of_cons. tauto.
      + done.
  Qed.

  (** The condition under which the code's insertion point is right: the value
      is already present, or no value nearest to it is repeated. *)
  Lemma insert_saving_order_spec :
    ascending h ->
    (v ∈ h \/ strictly_ascending h) ->
    exists r, insert_saving_order t h v = Ret r /\ ascending r /\ Permutation r (v :: h).
  Proof.
    intros Hs Hcase. unfold insert_saving_order. destruct h as [|h0 tl] eqn:Eh.
    { exists [v]. repeat split.
      - by apply strictly_ascending_ascending, strictly_ascending_singleton.
      - done. }
    rewrite <- Eh in *.
    destruct (closest_spec t h v Hs Hd) as (i & y & E & Hy & Hmin).
    { rewrite Eh. done. }
    rewrite E. cbn [obind]. rewrite (at_index_lookup _ _ _ Hy). cbn [obind].
    pose proof (lookup_lt_Some _ _ _ Hy) as Hi.
    assert (Hkey : forall l1 l2, h = l1 ++ l2 ->
      (forall a, a ∈ l1 -> a <= v) -> (forall a, a ∈ l2 -> v <= a) ->
      ascending (l1 ++ v :: l2) /\ Permutation (l1 ++ v :: l2) (v :: h)).
    { intros l1 l2 -> Hl1 Hl2. apply ascending_split in Hs as (H1 & H2 & H3). split.
      - apply ascending_split. split; [done|]. split.
        + change (v :: l2) with ([v] ++ l2). apply ascending_split. split; [|split; [done|]].
          * by apply strictly_ascending_ascending, strictly_ascending_singleton.
          * intros a b Ha Hb. apply elem_of_list_singleton in Ha. subst. auto.
        + intros a b Ha Hb. apply elem_of_cons in Hb as [-> |Hb]; auto.
      - symmetry. apply Permutation_middle. }
    destruct (Z.leb_spec y v) as [Hle|Hgt].
    - replace (Z.of_nat i + 1) with (Z.of_nat (S i)) by lia.
      destruct (insert_middle_Ret h (S i) v ltac:(lia)) as (l1 & l2 & Ehl & Hl1 & Er).
      rewrite Er. exists (l1 ++ v :: l2). split; [done|]. apply Hkey; [done| |].
      + intros a Ha. apply elem_of_list_lookup in Ha as [j Hj].
        pose proof (lookup_lt_Some _ _ _ Hj).
        assert (Hj' : h !! j = Some a) by (rewrite Ehl; by apply lookup_app_l_Some).
        destruct (decide (j = i)) as [-> |].
        * assert (a = y) by congruence. lia.
        * pose proof (Hs j i a y ltac:(lia) Hj' Hy). lia.
      + intros a Ha. apply elem_of_list_lookup in Ha as [j Hj].
        assert (Hj' : h !! (length l1 + j)%nat = Some a) by (rewrite Ehl; by rewrite lookup_app_plus).
        pose proof (Hs i (length l1 + j)%nat y a ltac:(lia) Hy Hj').
        destruct Hcase as [Hin|Hst].
        * apply elem_of_list_lookup in Hin as [k Hk]. pose proof (Hmin _ _ Hk). lia.
        * pose proof (Hst i (length l1 + j)%nat y a ltac:(lia) Hy Hj').
          pose proof (Hmin _ _ Hj'). lia.
    - destruct (insert_middle_Ret h i v ltac:(lia)) as (l1 & l2 & Ehl & Hl1 & Er).
      rewrite Er. exists (l1 ++ v :: l2). split; [done|]. apply Hkey; [done| |].
      + intros a Ha. apply elem_of_list_lookup in Ha as [j Hj].
        pose proof (lookup_lt_Some _ _ _ Hj).
        assert (Hj' : h !! j = Some a) by (rewrite Ehl; by apply lookup_app_l_Some).
        pose proof (Hs j i a y ltac:(lia) Hj' Hy).
        destruct Hcase as [Hin|Hst].
        * apply elem_of_list_lookup in Hin as [k Hk]. pose proof (Hmin _ _ Hk). lia.
        * pose proof (Hst j i a y ltac:(lia) Hj' Hy).
          pose proof (Hmin _ _ Hj'). lia.
      + intros a Ha. apply elem_of_list_lookup in Ha as [j Hj].
        assert (Hj' : h !! (length l1 + j)%nat = Some a) by (rewrite Ehl; by rewrite lookup_app_plus).
        destruct (decide (length l1 + j = i)%nat) as [Eq|].
        * rewrite Eq in Hj'. assert (a = y) by congruence. lia.
        * pose proof (Hs i (length l1 + j)%nat y a ltac:(lia) Hy Hj'). lia.
  Qed.
End Insertions.

(** ** Removal *)

Lemma remove_saving_order_app {T} (l1 l2 : list T) x :
  remove_saving_order (l1 ++ x :: l2) (Z.of_nat (length l1)) = Ret (l1 ++ l2).
Proof.
  unfold remove_saving_order. rewrite app_length. cbn [length].
  destruct (Z.leb_spec 0 (Z.of_nat (length l1))); [|lia].
  destruct (Z.leb_spec (Z.of_nat (length l1) + 1) (Z.of_nat (length l1 + S (length l2)))); [|lia].
  cbn [andb]. rewrite Nat2Z.id, take_app.
  replace (Z.to_nat (Z.of_nat (length l1) + 1)) with (length l1 + 1)%nat by lia.
  rewrite drop_add_app by done. done.
Qed.

Lemma remove_saving_order_panic {T} (h : list T) i :
  i < 0 \/ Z.of_nat (length h) <= i -> remove_saving_order h i = Panic.
Proof.
  intros H. unfold remove_saving_order.
  destruct (Z.leb_spec 0 i), (Z.leb_spec (i + 1) (Z.of_nat (length h))); cbn [andb]; try done.
  lia.
Qed.

Lemma remove_at_spec {T} (l1 l2 : list T) x :
  exists r, remove_at (l1 ++ x :: l2) (Z.of_nat (length l1)) = Ret r /\
    Permutation r (l1 ++ l2).
Proof.
  unfold remove_at.
  destruct (last (l1 ++ x :: l2)) as [y|] eqn:El.
  2:{ apply last_None in El. by destruct l1. }
  rewrite app_length. cbn [length].
  destruct (Z.leb_spec 0 (Z.of_nat (length l1))); [|lia].
  destruct (Z.ltb_spec (Z.of_nat (length l1)) (Z.of_nat (length l1 + S (length l2)))); [|lia].
  cbn [andb]. eexists; split; [reflexivity|].
  rewrite Nat2Z.id. rewrite insert_app_r_alt, Nat.sub_diag by lia. cbn [insert list_insert].
  destruct l2 as [|z l2] using rev_ind.
  - cbn [length]. rewrite take_app_alt by lia. by rewrite app_nil_r.
  - clear IHl2. rewrite app_comm_cons, app_assoc, last_snoc in El. injection El as ->.
    rewrite app_length. cbn [length].
    rewrite app_comm_cons, app_assoc. rewrite take_app_alt.
    2:{ rewrite app_length. cbn [length]. lia. }
    rewrite (Permutation_app_comm l2 [y]). done.
Qed.

Lemma remove_at_panic {T} (h : list T) i :
  i < 0 \/ Z.of_nat (length h) <= i -> remove_at h i = Panic.
Proof.
  intros H. unfold remove_at. destruct (last h); [|done].
  destruct (Z.leb_spec 0 i), (Z.ltb_spec i (Z.of_nat (length h))); cbn [andb]; try done. lia.
Qed.

(** Wherever InsertSavingOrder puts the value, nothing else changes. *)
Lemma insert_saving_order_adds t h v :
  (forall y, y ∈ h -> in_type t (Z.abs (y - v))) -> ascending h ->
  exists l1 l2, h = l1 ++ l2 /\ insert_saving_order t h v = Ret (l1 ++ v :: l2).
Proof.
  intros Hd Hs. destruct h as [|h0 h'] eqn:Eh.
  { exists [], []. done. }
  unfold insert_saving_order. rewrite <- Eh in *.
  destruct (closest_spec t h v Hs Hd) as (i & y & E & Hi & _); [by subst|].
  pose proof (lookup_lt_Some _ _ _ Hi) as Hlt.
  assert (Hgoal : exists l1 l2, h = l1 ++ l2 /\
    obind (binary_index_of_closest t h v) (fun index =>
    obind (at_index h index) (fun hi =>
    if hi <=? v then insert_at h (index + 1) v else insert_at h index v)) = Ret (l1 ++ v :: l2)).
  { rewrite E. cbn [obind]. rewrite (at_index_lookup h i y Hi). cbn [obind].
    destruct (y <=? v).
    - destruct (insert_middle_Ret h (S i) v) as (l1 & l2 & E1 & _ & E3); [lia|].
      exists l1, l2. split; [done|]. rewrite <- E3. f_equal. lia.
    - destruct (insert_middle_Ret h i v) as (l1 & l2 & E1 & _ & E3); [lia|].
      exists l1, l2. done. }
  subst h. exact Hgoal.
Qed.

Lemma insert_at_panic {T} (h : list T) i v :
  i < 0 \/ Z.of_nat (length h) < i -> insert_at h i v = Panic.
Proof.
  intros H. unfold insert_at. destruct (Z.eqb_spec (Z.of_nat (length h)) i); [lia|].
  destruct (Z.leb_spec 0 i), (Z.ltb_spec i (Z.of_nat (length h))); cbn [andb]; try done. lia.
Qed.

(** ** Forms used by the property file *)

Lemma unsigned_dev t h x : unsigned t = true -> Forall (in_type t) h -> in_type t x ->
  forall y, y ∈ h -> in_type t (Z.abs (y - x)).
Proof.
  intros U Hh Hx y Hy. rewrite Forall_forall in Hh. apply unsigned_abs_in_type; auto.
Qed.

Lemma closest_unsigned t h x :
  unsigned t = true -> Forall (in_type t) h -> in_type t x -> ascending h ->
  (h = [] -> binary_index_of_closest t h x = Ret (-1)) /\
  (h <> [] -> exists (i : nat) (y : Z),
     binary_index_of_closest t h x = Ret (Z.of_nat i) /\ h !! i = Some y /\
     forall (j : nat) (z : Z), h !! j = Some z -> Z.abs (y - x) <= Z.abs (z - x)).
Proof.
  intros U Hh Hx Hs. split; [by intros ->|].
  apply closest_spec; [done|]. by apply unsigned_dev.
Qed.

Lemma closest_signed_wrong :
  exists h x, Forall (in_type I8) h /\ in_type I8 x /\ ascending h /\
    exists i z w, binary_index_of_closest I8 h x = Ret (Z.of_nat i) /\
      h !! i = Some z /\ w ∈ h /\ Z.abs (w - x) < Z.abs (z - x).
Proof.
  exists [-128; 126], 127. split; [repeat constructor; done|]. split; [done|]. split.
  { intros [|[|i]] [|[|j]] x y Hij Hx Hy; cbn in *; simplify_eq; lia. }
  exists 0%nat, (-128), 126. split; [done|]. split; [done|]. split; [|done].
  right. left.
Qed.

Lemma put_saving_order_unsigned t h v :
  unsigned t = true -> Forall (in_type t) h -> in_type t v -> strictly_ascending h ->
  exists r, put_saving_order t h v = Ret r /\ strictly_ascending r /\
    (forall y, y ∈ r <-> y ∈ h \/ y = v) /\ (v ∈ h -> r = h).
Proof. intros U Hh Hv Hs. apply put_saving_order_spec; [by apply unsigned_dev|done]. Qed.

Lemma insert_saving_order_breaks_order :
  exists v1 v2 v3 h1 h2 h3,
    insert_saving_order U64 [] v1 = Ret h1 /\
    insert_saving_order U64 h1 v2 = Ret h2 /\ ascending h2 /\
    insert_saving_order U64 h2 v3 = Ret h3 /\ ~ ascending h3.
Proof.
  exists 5, 5, 9, [5], [5; 5], [5; 9; 5].
  split; [done|]. split; [done|]. split.
  { intros [|[|i]] [|[|j]] x y Hij Hx Hy; cbn in *; simplify_eq; lia. }
  split; [done|]. intros H. pose proof (H 1%nat 2%nat 9 5 ltac:(lia) eq_refl eq_refl). lia.
Qed.

Lemma insert_saving_order_unsigned t h v :
  unsigned t = true -> Forall (in_type t) h -> in_type t v -> ascending h ->
  exists l1 l2, h = l1 ++ l2 /\ insert_saving_order t h v = Ret (l1 ++ v :: l2) /\
    (v ∈ h \/ strictly_ascending h -> ascending (l1 ++ v :: l2)).
Proof.
  intros U Hh Hv Hs. pose proof (unsigned_dev t h v U Hh Hv) as Hd.
  destruct (insert_saving_order_adds t h v Hd Hs) as (l1 & l2 & E1 & E2).
  exists l1, l2. split; [done|]. split; [done|]. intros Hc.
  destruct (insert_saving_order_spec t h v Hd Hs Hc) as (r & Er & Ha & _).
  rewrite E2 in Er. injection Er as <-. done.
Qed.

Lemma remove_both {T} (h : list T) (i : Z) :
  (forall l1 x l2, h = l1 ++ x :: l2 -> i = Z.of_nat (length l1) ->
     remove_saving_order h i = Ret (l1 ++ l2) /\
     exists r, remove_at h i = Ret r /\ Permutation r (l1 ++ l2)) /\
  (i < 0 \/ Z.of_nat (length h) <= i ->
     remove_saving_order h i = Panic /\ remove_at h i = Panic).
Proof.
  split.
  - intros l1 x l2 -> ->. split; [apply remove_saving_order_app|apply remove_at_spec].
  - intros H. split; [by apply remove_saving_order_panic|by apply remove_at_panic].
Qed.

Lemma deviation_signed_wrong t :
  unsigned t = false ->
  exists a b, in_type t a /\ in_type t b /\ deviation t a b <> Z.abs (a - b).
Proof.
  intros U. exists (tmin t), (tmax t). destruct t; try done; vm_compute; naive_solver.
Qed.

Lemma wrap_in_type t z : in_type t (wrap t z).
Proof.
  unfold wrap, in_type. pose proof (type_size t).
  pose proof (Z.mod_pos_bound (z - tmin t) (2 ^ bits t) ltac:(destruct t; done)). lia.
Qed.

Lemma deviation_exact t a b : in_type t a -> in_type t b ->
  (unsigned t = true -> deviation t a b = Z.abs (a - b)) /\
  (deviation t a b = Z.abs (a - b) <-> Z.abs (a - b) <= tmax t).
Proof.
  intros Ha Hb. split.
  - intros U. apply deviation_abs. by apply unsigned_abs_in_type.
  - split.
    + intros E. rewrite <- E. unfold deviation. destruct (a <? b); apply wrap_in_type.
    + intros H. apply deviation_abs. split; [|done].
      assert (tmin t <= 0) by (by destruct t). lia.
Qed.
