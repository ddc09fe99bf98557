(** Proofs about names, paths and configuration. *)
From Verif Require Import Base Naming Config SpecNames.

(** * The matcher *)
Definition class_end (rs : list (Z * Z)) (s : list byte) : nat -> list nat :=
  match_ends (RClass rs) s.

Lemma class_end_in rs s i j :
  j ∈ match_ends (RClass rs) s i <->
  j = S i /\ exists b, s !! i = Some b /\ in_ranges rs b = true.
Proof.
  cbn. destruct (s !! i) as [b|] eqn:E.
  - destruct (in_ranges rs b) eqn:R.
    + rewrite elem_of_list_singleton. split; [intros ->; eauto|by intros [-> _]].
    + split; [intros H; by apply elem_of_nil in H|].
      intros (_ & b' & [= ->] & R'). congruence.
  - split; [intros H; by apply elem_of_nil in H|]. by intros (_ & b' & ? & _).
Qed.

Definition all_from (P : byte -> Prop) (s : list byte) (i j : nat) : Prop :=
  forall k b, (i <= k < j)%nat -> s !! k = Some b -> P b.

Lemma star_class_in rs s fuel : forall i j,
  j ∈ star_ends (match_ends (RClass rs) s) fuel i <->
  (i <= j)%nat /\ (j - i <= fuel)%nat /\ (j = i \/ (j <= length s)%nat) /\
  all_from (fun b => in_ranges rs b = true) s i j.
Proof.
  induction fuel as [|fuel IH]; intros i j.
  - cbn. rewrite elem_of_list_singleton. split.
    + intros ->. split; [lia|]. split; [lia|]. split; [by left|]. intros k b Hk. lia.
    + intros (? & ? & _). lia.
  - cbn [star_ends]. rewrite elem_of_cons, elem_of_list_In, in_flat_map. split.
    + intros [->|(m & Hm & Hj)].
      * split; [lia|]. split; [lia|]. split; [by left|]. intros k b Hk. lia.
      * apply elem_of_list_In, class_end_in in Hm as (-> & b & Eb & Rb).
        replace (i <? S i)%nat with true in Hj by (symmetry; apply Nat.ltb_lt; lia).
        apply elem_of_list_In, IH in Hj as (H1 & H2 & H3 & H4).
        split; [lia|]. split; [lia|]. split.
        { right. apply lookup_lt_Some in Eb. destruct H3; lia. }
        intros k c Hk Ec. destruct (decide (k = i)) as [->|].
        { by rewrite Eb in Ec; injection Ec as <-. }
        apply (H4 k c); [lia|done].
    + intros (H1 & H2 & H3 & H4). destruct (decide (j = i)) as [->|Hne]; [by left|right].
      assert (Hl : (j <= length s)%nat) by (destruct H3; lia).
      destruct (lookup_lt_is_Some_2 s i) as [b Eb]; [lia|].
      exists (S i). split.
      * apply elem_of_list_In, class_end_in. split; [done|].
        exists b. split; [done|]. apply (H4 i b); [lia|done].
      * replace (i <? S i)%nat with true by (symmetry; apply Nat.ltb_lt; lia).
        apply elem_of_list_In, IH. split; [lia|]. split; [lia|]. split; [right; lia|].
        intros k c Hk. apply H4. lia.
Qed.

(** A first character from one class, the rest from another, the whole text. *)
Lemma match_first_rest r1 r2 s :
  match_string (RCat RBegin (RCat (RClass r1) (RCat (RStar (RClass r2)) REnd))) s = true <->
  exists c r, s = c :: r /\ in_ranges r1 c = true /\ Forall (fun b => in_ranges r2 b = true) r.
Proof.
  unfold match_string. rewrite existsb_exists. split.
  - intros (i & _ & H).
    destruct (match_ends _ s i) as [|x l] eqn:E; [done|]. clear H.
    assert (Hx : In x (match_ends (RCat RBegin (RCat (RClass r1)
                   (RCat (RStar (RClass r2)) REnd))) s i)) by (rewrite E; by left).
    clear E l. change (match_ends (RCat RBegin (RCat (RClass r1) (RCat (RStar (RClass r2)) REnd))) s i)
      with (flat_map (fun j => flat_map (fun k => flat_map
              (fun m => if (m =? length s)%nat then [m] else [])
              (match_ends (RStar (RClass r2)) s k)) (match_ends (RClass r1) s j))
              (if (i =? 0)%nat then [i] else [])) in Hx.
    destruct (Nat.eqb_spec i 0) as [->|]; [|done]. cbn [flat_map] in Hx. rewrite app_nil_r in Hx.
    apply in_flat_map in Hx as (k & Hk & Hx).
    apply elem_of_list_In, class_end_in in Hk as (-> & c & Ec & Rc).
    apply in_flat_map in Hx as (m & Hm & Hx).
    destruct (Nat.eqb_spec m (length s)) as [->|]; [|done].
    change (match_ends (RStar (RClass r2)) s 1)
      with (star_ends (match_ends (RClass r2) s) (length s) 1) in Hm.
    apply elem_of_list_In, star_class_in in Hm as (_ & _ & _ & H).
    destruct s as [|c' r]; [done|]. injection Ec as ->.
    exists c, r. split; [done|]. split; [done|].
    apply Forall_lookup. intros k b Eb. apply (H (S k) b); [|done].
    apply lookup_lt_Some in Eb. cbn. lia.
  - intros (c & r & -> & Rc & Rr). exists 0%nat. split; [by left|].
    assert (In (length (c :: r)) (match_ends (RCat RBegin (RCat (RClass r1)
              (RCat (RStar (RClass r2)) REnd))) (c :: r) 0)) as Hin.
    { cbn [match_ends]. apply in_flat_map. exists 0%nat. split; [by left|].
      apply in_flat_map. exists 1%nat. split.
      { cbn. rewrite Rc. by left. }
      apply in_flat_map. exists (length (c :: r)). split.
      { apply elem_of_list_In, star_class_in. split; [cbn; lia|]. split; [cbn; lia|].
        split; [by right|]. intros k b Hk Eb. destruct k as [|k]; [lia|].
        by apply (Forall_lookup_1 _ _ _ _ Rr Eb). }
      rewrite Nat.eqb_refl. by left. }
    by destruct (match_ends _ _ 0).
Qed.

Lemma in_ranges_spec rs b :
  in_ranges rs b = true <-> exists r, r ∈ rs /\ fst r <= b <= snd r.
Proof.
  unfold in_ranges. rewrite existsb_exists. split.
  - intros (r & Hr & H). exists r. split; [by apply elem_of_list_In|].
    apply andb_true_iff in H as [H1 H2]. apply Z.leb_le in H1, H2. lia.
  - intros (r & Hr & H). exists r. split; [by apply elem_of_list_In|].
    apply andb_true_iff. split; apply Z.leb_le; lia.
Qed.

Lemma in_ranges_cons l h rs b :
  in_ranges ((l, h) :: rs) b = true <-> l <= b <= h \/ in_ranges rs b = true.
Proof.
  rewrite !in_ranges_spec. split.
  - intros (r & Hr & H). apply elem_of_cons in Hr as [->|Hr]; [by left|right; eauto].
  - intros [H|(r & Hr & H)]; [exists (l, h)|exists r]; split; try done.
    + by left.
    + by right.
Qed.

Lemma in_ranges_nil b : in_ranges [] b = true <-> False.
Proof. done. Qed.

Lemma name_regex_ok s : match_string name_regex s = true <-> name_ok s.
Proof.
  unfold name_regex. rewrite match_first_rest. unfold name_ok.
  apply exist_proper. intros c. apply exist_proper. intros r.
  split; intros (E & H1 & H2); (split; [done|]).
  - rewrite !in_ranges_cons, in_ranges_nil in H1. split.
    { unfold letter, lower_letter, upper_letter. tauto. }
    eapply Forall_impl; [exact H2|]. intros b H. cbv beta in H.
    rewrite !in_ranges_cons, in_ranges_nil in H.
    unfold letter, lower_letter, upper_letter, digit. destruct H as [|[|[|[|[|[]]]]]]; lia.
  - unfold letter, lower_letter, upper_letter, digit in *. split.
    { rewrite !in_ranges_cons, in_ranges_nil. tauto. }
    eapply Forall_impl; [exact H2|]. intros b H. cbv beta in H |- *.
    rewrite !in_ranges_cons, in_ranges_nil. lia.
Qed.

Lemma parse_name_ok s : name_ok s -> parse_namespace_name s = Ret s.
Proof. intros H. unfold parse_namespace_name. by rewrite (proj2 (name_regex_ok s) H). Qed.

Lemma parse_name_bad s :
  ~ name_ok s -> parse_namespace_name s = Err (EMsg "invalid namespace name").
Proof.
  intros H. unfold parse_namespace_name. destruct (match_string name_regex s) eqn:E; [|done].
  by apply name_regex_ok in E.
Qed.

Lemma parse_name_ret s n : parse_namespace_name s = Ret n -> n = s /\ name_ok s.
Proof.
  unfold parse_namespace_name. destruct (match_string name_regex s) eqn:E; [|done].
  intros [= <-]. split; [done|]. by apply name_regex_ok.
Qed.

(** * Paths *)
Lemma name_ok_bytes s b : name_ok s -> b ∈ s -> letter b \/ digit b \/ b = 95 \/ b = 45.
Proof.
  intros (c & r & -> & Hc & Hr) Hb. apply elem_of_cons in Hb as [->|Hb]; [by left|].
  by apply (proj1 (Forall_forall _ _) Hr).
Qed.

Lemma name_ok_safe s : name_ok s -> 47 ∉ s /\ 46 ∉ s /\ 0 ∉ s /\ s <> [].
Proof.
  intros H. split; [|split; [|split]].
  - intros Hb. apply (name_ok_bytes _ _ H) in Hb.
    unfold letter, lower_letter, upper_letter, digit in Hb. lia.
  - intros Hb. apply (name_ok_bytes _ _ H) in Hb.
    unfold letter, lower_letter, upper_letter, digit in Hb. lia.
  - intros Hb. apply (name_ok_bytes _ _ H) in Hb.
    unfold letter, lower_letter, upper_letter, digit in Hb. lia.
  - destruct H as (c & r & -> & _). done.
Qed.

Lemma file_name_ext s k : name_ok s -> file_name (s ++ ns_file_ext k).
Proof.
  intros H. destruct (name_ok_safe s H) as (H1 & H2 & H3 & H4).
  split; [|split; [|split; [|split]]].
  - destruct s; done.
  - rewrite not_elem_of_app. split; [done|]. by destruct k; apply (bool_decide_unpack _).
  - rewrite not_elem_of_app. split; [done|]. by destruct k; apply (bool_decide_unpack _).
  - destruct s as [|a s]; [done|]. intros [= -> E].
    destruct s; [|done]. by destruct k.
  - destruct s as [|a s]; [done|]. intros [= -> E].
    apply H2. by left.
Qed.

Lemma base_path_dir env : base_path env = [] \/ last (base_path env) = Some slash.
Proof.
  unfold base_path. destruct (last env) as [c|] eqn:E.
  - right. destruct (Z.eqb_spec c 47) as [->|].
    + done.
    + change (ascii_bytes "/") with [47]. by rewrite last_snoc.
  - left. by apply last_None.
Qed.

(** The last component of a path is unique. *)
Lemma component_unique d1 c1 d2 c2 :
  slash ∉ c1 -> slash ∉ c2 -> (d1 = [] \/ last d1 = Some slash) ->
  (d2 = [] \/ last d2 = Some slash) -> d1 ++ c1 = d2 ++ c2 -> c1 = c2.
Proof.
  assert (G : forall d1 c1 d2 c2, slash ∉ c1 -> slash ∉ c2 ->
            (d2 = [] \/ last d2 = Some slash) -> (length d1 <= length d2)%nat ->
            d1 ++ c1 = d2 ++ c2 -> c1 = c2).
  { clear. intros d1 c1 d2 c2 N1 N2 L2 Hl E.
    apply app_eq_inv in E as [(k & -> & ->)|(k & -> & ->)].
    - assert (k = []) as ->; [|done]. destruct k; [done|]. rewrite app_length in Hl. cbn in Hl. lia.
    - assert (k = []) as ->; [|by rewrite app_nil_l].
      destruct (decide (k = [])) as [|Hk]; [done|exfalso].
      destruct L2 as [L2|L2].
      { by apply app_eq_nil in L2 as [_ ->]. }
      apply N1. apply elem_of_app. left.
      destruct (exists_last Hk) as (k' & x & ->).
      rewrite app_assoc, last_snoc in L2. injection L2 as ->.
      apply elem_of_app. right. by left. }
  intros N1 N2 L1 L2 E. destruct (decide (length d1 <= length d2)%nat).
  - by apply (G d1 c1 d2 c2).
  - symmetry. apply (G d2 c2 d1 c1); try done. lia.
Qed.

Lemma different_by_component d1 c1 d2 c2 :
  slash ∉ c1 -> slash ∉ c2 -> (d1 = [] \/ last d1 = Some slash) ->
  (d2 = [] \/ last d2 = Some slash) -> c1 <> c2 ->
  different_entries (d1 ++ c1) (d2 ++ c2).
Proof.
  intros N1 N2 L1 L2 Hne e1 a1 e2 a2 Na1 Na2 E1 M1 E2 M2.
  rewrite <- (component_unique d1 c1 e1 a1), <- (component_unique d2 c2 e2 a2); done.
Qed.

(** Two names with their extensions: equal only if both agree. *)
Lemma ext_inj s1 k1 s2 k2 :
  46 ∉ s1 -> 46 ∉ s2 -> s1 ++ ns_file_ext k1 = s2 ++ ns_file_ext k2 -> s1 = s2 /\ k1 = k2.
Proof.
  intros N1 N2 E.
  assert (s1 = s2) as ->.
  { revert s2 N2 E. induction s1 as [|a s1 IH]; intros [|b s2] N2 E; try done.
    - exfalso. destruct k1; cbn in E; injection E as E1 E; subst b; apply N2; by left.
    - exfalso. destruct k2; cbn in E; injection E as E1 E; subst a; apply N1; by left.
    - injection E as -> E. f_equal. apply IH; [|by intros H; apply N2; right|done].
      intros H. apply N1. by right. }
  split; [done|]. apply app_inv_head in E. by destruct k1, k2.
Qed.

Lemma ext_not_json s k : 46 ∉ s -> s ++ ns_file_ext k <> ascii_bytes "namespaces.json".
Proof.
  intros N E. cbn in E.
  repeat (destruct s as [|? s]; [by destruct k|];
          try (injection E as -> E; first [by (apply N; repeat constructor)|idtac])).
Qed.

(** * Numerals *)
Lemma atoi_digits_value ds : forall acc,
  Forall (fun d => 0 <= d <= 9) ds ->
  atoi_digits acc (map (fun d => d + 48) ds) =
  Some (acc * 10 ^ Z.of_nat (length ds) + digits_value ds).
Proof.
  induction ds as [|d ds IH]; intros acc H; cbn [map atoi_digits digits_value length].
  - f_equal. change (10 ^ Z.of_nat 0) with 1. lia.
  - apply Forall_cons in H as [Hd H].
    replace ((48 <=? d + 48) && (d + 48 <=? 57)) with true
      by (symmetry; apply andb_true_iff; split; apply Z.leb_le; lia).
    rewrite IH by done. f_equal.
    rewrite Nat2Z.inj_succ, Z.pow_succ_r by lia. ring.
Qed.

Lemma atoi_digits_some s : forall acc n,
  atoi_digits acc s = Some n ->
  exists ds, s = map (fun d => d + 48) ds /\ Forall (fun d => 0 <= d <= 9) ds.
Proof.
  induction s as [|c s IH]; intros acc n H.
  - by exists [].
  - cbn in H. destruct ((48 <=? c) && (c <=? 57)) eqn:E; [|done].
    apply andb_true_iff in E as [E1 E2]. apply Z.leb_le in E1, E2.
    destruct (IH _ _ H) as (ds & -> & Hds). exists ((c - 48) :: ds). split.
    + cbn. f_equal. lia.
    + constructor; [lia|done].
Qed.

Lemma digits_value_nonneg ds : Forall (fun d => 0 <= d <= 9) ds -> 0 <= digits_value ds.
Proof.
  induction 1 as [|d ds Hd H IH]; cbn; [done|].
  assert (0 < 10 ^ Z.of_nat (length ds)) by (apply Z.pow_pos_nonneg; lia). nia.
Qed.

Definition sign_split (s : list byte) : bool * list byte :=
  match s with
  | 45 :: s' => (true, s')
  | 43 :: s' => (false, s')
  | _ => (false, s)
  end.

Lemma atoi_unfold s :
  atoi s =
  let '(neg, ds) := sign_split s in
  match ds with
  | [] => None
  | _ => match atoi_digits 0 ds with
         | None => None
         | Some n => let z := if neg : bool then - n else n in
                     if (tmin I64 <=? z) && (z <=? tmax I64) then Some z else None
         end
  end.
Proof. reflexivity. Qed.

Lemma sign_split_eq s :
  (exists s', s = 45 :: s' /\ sign_split s = (true, s')) \/
  (exists s', s = 43 :: s' /\ sign_split s = (false, s')) \/
  (s <> [] -> forall s', s <> 45 :: s' /\ s <> 43 :: s') /\ sign_split s = (false, s).
Proof.
  destruct s as [|c s]; [right; right; done|].
  destruct (Z.eq_dec c 45) as [->|H1]; [left; eauto|].
  destruct (Z.eq_dec c 43) as [->|H2]; [right; left; eauto|].
  right; right. split; [intros _ s'; split; congruence|].
  unfold sign_split. destruct c as [|p|p]; try done.
  do 6 (destruct p as [p|p|]; try done).
Qed.

(** strconv.Atoi reads exactly the decimal integers in range. *)
Lemma atoi_correct s z :
  atoi s = Some z <-> writes_int s z /\ in_type I64 z.
Proof.
  rewrite atoi_unfold. split.
  - intros H. destruct (sign_split_eq s) as [(s' & -> & E)|[(s' & -> & E)|[N E]]];
      rewrite E in H; cbv beta iota zeta in H.
    + destruct s' as [|c s']; [done|].
      destruct (atoi_digits 0 (c :: s')) as [n|] eqn:A; [|done].
      destruct (atoi_digits_some _ _ _ A) as (ds & Es & Hds). rewrite Es in A.
      rewrite atoi_digits_value in A by done. injection A as <-.
      destruct ((_ <=? _) && _) eqn:R in H; [|done]. injection H as <-.
      apply andb_true_iff in R as [R1 R2]. apply Z.leb_le in R1, R2.
      split; [|split; lia]. exists [45], ds. rewrite <- Es.
      split; [by destruct ds|]. split; [done|]. split; [done|]. right. split; [done|]. lia.
    + destruct s' as [|c s']; [done|].
      destruct (atoi_digits 0 (c :: s')) as [n|] eqn:A; [|done].
      destruct (atoi_digits_some _ _ _ A) as (ds & Es & Hds). rewrite Es in A.
      rewrite atoi_digits_value in A by done. injection A as <-.
      destruct ((_ <=? _) && _) eqn:R in H; [|done]. injection H as <-.
      apply andb_true_iff in R as [R1 R2]. apply Z.leb_le in R1, R2.
      split; [|split; lia]. exists [43], ds. rewrite <- Es.
      split; [by destruct ds|]. split; [done|]. split; [done|]. left.
      split; [by right|]. lia.
    + destruct s as [|c s]; [done|].
      destruct (atoi_digits 0 (c :: s)) as [n|] eqn:A; [|done].
      destruct (atoi_digits_some _ _ _ A) as (ds & Es & Hds). rewrite Es in A.
      rewrite atoi_digits_value in A by done. injection A as <-.
      destruct ((_ <=? _) && _) eqn:R in H; [|done]. injection H as <-.
      apply andb_true_iff in R as [R1 R2]. apply Z.leb_le in R1, R2.
      split; [|split; lia]. exists [], ds. rewrite <- Es.
      split; [by destruct ds|]. split; [done|]. split; [done|]. left.
      split; [by left|]. lia.
  - intros [(sign & ds & Hne & Hds & -> & Hz) [R1 R2]].
    assert (Hm : exists c r, map (fun d => d + 48) ds = c :: r /\ 48 <= c <= 57).
    { destruct ds as [|d ds]; [done|]. apply Forall_cons in Hds as [? _].
      exists (d + 48), (map (fun d => d + 48) ds). split; [done|lia]. }
    destruct Hm as (c & r & Em & Hc).
    assert (RR : (tmin I64 <=? z) && (z <=? tmax I64) = true)
      by (apply andb_true_iff; split; apply Z.leb_le; lia).
    destruct Hz as [(Hs & Hz)|(-> & Hz)]; [destruct Hs as [-> | ->]|].
    + assert (E : sign_split ([] ++ map (fun d => d + 48) ds) = (false, map (fun d => d + 48) ds)).
      { cbn [app]. rewrite Em.
        destruct (sign_split_eq (c :: r)) as [(s' & E & _)|[(s' & E & _)|[_ E]]];
          [congruence || (injection E as E _; lia)|injection E as E _; lia|done]. }
      rewrite E. cbv beta iota zeta. rewrite Em. rewrite <- Em.
      rewrite atoi_digits_value by done.
      change (0 * _) with 0. rewrite Z.add_0_l, <- Hz, RR. done.
    + change (sign_split ([43] ++ map (fun d => d + 48) ds)) with (false, map (fun d => d + 48) ds).
      cbv beta iota zeta. rewrite Em. rewrite <- Em. rewrite atoi_digits_value by done.
      change (0 * _) with 0. rewrite Z.add_0_l, <- Hz, RR. done.
    + change (sign_split ([45] ++ map (fun d => d + 48) ds)) with (true, map (fun d => d + 48) ds).
      cbv beta iota zeta. rewrite Em. rewrite <- Em. rewrite atoi_digits_value by done.
      change (0 * _) with 0. rewrite Z.add_0_l, <- Hz, RR. done.
Qed.

(** strconv.Itoa *)
Lemma digits_value_app ds1 ds2 :
  digits_value (ds1 ++ ds2) =
  digits_value ds1 * 10 ^ Z.of_nat (length ds2) + digits_value ds2.
Proof.
  induction ds1 as [|d ds1 IH]; cbn [app digits_value]; [lia|].
  rewrite IH, app_length, Nat2Z.inj_add, Z.pow_add_r by lia. ring.
Qed.

Lemma itoa_digits_ok fuel : forall n acc,
  0 <= n < 10 ^ Z.of_nat fuel -> (0 < fuel)%nat ->
  exists ds, itoa_digits fuel n acc = map (fun d => d + 48) ds ++ acc /\
    Forall (fun d => 0 <= d <= 9) ds /\ digits_value ds = n /\ ds <> [] /\
    (0 < n -> exists d r, ds = d :: r /\ 1 <= d <= 9) /\ (n = 0 -> ds = [0]).
Proof.
  induction fuel as [|fuel IH]; intros n acc Hn Hf; [lia|].
  cbn [itoa_digits]. pose proof (Z.mod_pos_bound n 10 eq_refl) as Hm.
  destruct (Z.ltb_spec n 10) as [H|H].
  - exists [n]. rewrite Z.mod_small by lia. cbn. split; [f_equal; lia|].
    split; [repeat constructor; lia|]. split; [lia|]. split; [done|].
    split; [intros ?; exists n, []; split; [done|lia]|by intros ->].
  - assert (0 < fuel)%nat.
    { destruct fuel; [|lia]. change (10 ^ Z.of_nat 1) with 10 in Hn. lia. }
    destruct (IH (n / 10) ((48 + n mod 10) :: acc)) as (ds & E & Hds & Hv & Hne & Hp & _); [|done|].
    { rewrite Nat2Z.inj_succ, Z.pow_succ_r in Hn by lia.
      split; [apply Z.div_pos; lia|apply Z.div_lt_upper_bound; lia]. }
    exists (ds ++ [n mod 10]). split; [|split; [|split; [|split; [|split]]]].
    + rewrite E, map_app, <- app_assoc. cbn. do 2 f_equal. lia.
    + apply Forall_app. split; [done|]. repeat constructor; lia.
    + rewrite digits_value_app, Hv. cbn. pose proof (Z.div_mod n 10). lia.
    + by destruct ds.
    + intros _. destruct Hp as (d & r & -> & Hd).
      { pose proof (Z.div_mod n 10). lia. }
      exists d, (r ++ [n mod 10]). done.
    + lia.
Qed.

Lemma itoa_canonical z : in_type I64 z -> canonical_int (itoa z) z.
Proof.
  intros [H1 H2]. change (tmin I64) with (-2^63) in H1. change (tmax I64) with (2^63-1) in H2.
  assert (P : 2 ^ 63 < 10 ^ Z.of_nat 20) by done.
  unfold itoa. destruct (Z.ltb_spec z 0) as [Hz|Hz].
  - destruct (itoa_digits_ok 20 (- z) []) as (ds & E & Hds & Hv & Hne & Hp & _); [lia|lia|].
    rewrite E, app_nil_r. split; [|split; [lia|split; [lia|]]].
    + exists [45], ds. split; [done|]. split; [done|]. split; [done|]. right. split; [done|lia].
    + intros _. destruct Hp as (d & r & -> & Hd); [lia|].
      exists (d + 48), (map (fun d => d + 48) r). split; [done|lia].
  - destruct (itoa_digits_ok 20 z []) as (ds & E & Hds & Hv & Hne & Hp & H0); [lia|lia|].
    rewrite E, app_nil_r. split; [|split; [|split; [|lia]]].
    + exists [], ds. split; [done|]. split; [done|]. split; [done|]. left. split; [by left|lia].
    + intros Hz0. by rewrite (H0 Hz0).
    + intros Hz0. destruct Hp as (d & r & -> & Hd); [lia|].
      exists (d + 48), (map (fun d => d + 48) r). split; [done|lia].
Qed.
