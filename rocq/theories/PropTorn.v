(** Property C110: requests that run at the same time see whole values. *)
From Verif Require Import Base SliceHeap SpecSlices Torn.

Lemma tsteps_trans s1 s2 s3 : tsteps s1 s2 -> tsteps s2 s3 -> tsteps s1 s3.
Proof. induction 1; [done|]. intros. econstructor; [done|]. auto. Qed.

Lemma tsteps_one s1 s2 : tstep s1 s2 -> tsteps s1 s2.
Proof. intros. econstructor; [done|constructor]. Qed.

(** ** Every word that is read was stored *)

Definition stored (v : list nat) (vs : list (list nat * list nat)) (w x : nat) : Prop :=
  v !! w = Some x \/ exists u, u ∈ map fst vs /\ u !! w = Some x.

Lemma torn_inv v vs s1 s2 : tsteps s1 s2 ->
  map fst (t_writers s1) = map fst vs ->
  (forall w x, t_words s1 !! w = Some x -> stored v vs w x) ->
  (forall w x, (w, x) ∈ t_got s1 -> stored v vs w x) ->
  forall w x, (w, x) ∈ t_got s2 -> stored v vs w x.
Proof.
  induction 1 as [s|s1 s2 s3 Hst _ IH]; intros Hm Hw Hg; [exact Hg|].
  destruct Hst as [ws wr td got i u w rest x Hi Hx|ws wr w td got x Hx]; cbn [t_words t_writers t_got] in *; apply IH; clear IH;
    cbn [t_words t_writers t_got].
  - rewrite list_fmap_insert. cbn [fst]. rewrite list_insert_id; [done|]. rewrite list_lookup_fmap, Hi. done.
  - intros w' x' H'. destruct (decide (w' = w)) as [-> | Hne].
    + destruct (decide (w < length ws)%nat) as [Hl | Hl].
      * rewrite list_lookup_insert in H' by done. injection H' as <-. right. exists u. split; [|done].
        rewrite <- Hm. apply elem_of_list_lookup. exists i. by rewrite list_lookup_fmap, Hi.
      * rewrite lookup_ge_None_2 in H' by (rewrite insert_length; lia). done.
    + rewrite list_lookup_insert_ne in H' by done. by apply Hw.
  - done.
  - done.
  - done.
  - intros w' x' H'. apply elem_of_app in H' as [H' | H']; [by apply Hg|].
    apply elem_of_list_singleton in H'. injection H' as -> ->. by apply Hw.
Qed.

(** Each word of what is read is a word of the value before or of a value being stored.
    That is all: the words need not be of one value (below). *)
Theorem C110_words : forall v vs ro s w x,
  tsteps (t_start v vs ro) s -> t_read s w x ->
  v !! w = Some x \/ exists u, u ∈ map fst vs /\ u !! w = Some x.
Proof.
  intros v vs ro s w x H [_ Hr].
  apply (torn_inv v vs _ _ H); cbn [t_start t_writers t_words t_got]; [done|by left| |done].
  intros w' x' Hx. by apply elem_of_nil in Hx.
Qed.
Print Assumptions C110_words.

(** ** A value can be torn *)

Lemma store_all wr i ws u order td got : wr !! i = Some (u, order) ->
  length u = length ws -> Forall (fun w => (w < length ws)%nat) order ->
  exists ws', tsteps (TState ws wr td got) (TState ws' (<[i := (u, [])]> wr) td got) /\ length ws' = length ws /\
    (forall w, w ∈ order -> ws' !! w = u !! w) /\ (forall w, w ∉ order -> ws' !! w = ws !! w).
Proof.
  revert wr ws. induction order as [|w order IH]; intros wr ws Hi Hl Ho.
  - exists ws. rewrite list_insert_id by done. split; [constructor|]. split; [done|]. split; [|done].
    intros w Hw. by apply elem_of_nil in Hw.
  - apply Forall_cons in Ho as [Hw Ho].
    destruct (lookup_lt_is_Some_2 u w) as [x Hx]; [lia|].
    destruct (IH (<[i := (u, order)]> wr) (<[w := x]> ws)) as (ws' & Hs & Hl' & Hin & Hni);
      [apply list_lookup_insert; by eapply lookup_lt_Some|by rewrite insert_length|by rewrite insert_length|].
    rewrite list_insert_insert in Hs.
    exists ws'. split; [|split; [by rewrite insert_length in Hl'|split]].
    + econstructor; [|exact Hs]. by apply ts_store.
    + intros w' Hw'. destruct (decide (w' ∈ order)) as [Hin' | Hin']; [by apply Hin|].
      apply elem_of_cons in Hw' as [-> | ?]; [|done]. rewrite Hni by done. by rewrite list_lookup_insert.
    + intros w' Hw'. apply not_elem_of_cons in Hw' as [Hne Hw']. rewrite Hni by done. by rewrite list_lookup_insert_ne.
Qed.

Lemma load_all ws wr td got : Forall (fun w => (w < length ws)%nat) td ->
  exists got', tsteps (TState ws wr td got) (TState ws wr [] (got ++ got')) /\
    forall w x, w ∈ td -> ws !! w = Some x -> (w, x) ∈ got'.
Proof.
  revert got. induction td as [|w td IH]; intros got Ht.
  - exists []. rewrite app_nil_r. split; [constructor|]. intros w x Hw. by apply elem_of_nil in Hw.
  - apply Forall_cons in Ht as [Hw Ht]. destruct (lookup_lt_is_Some_2 ws w Hw) as [x Hx].
    destruct (IH (got ++ [(w, x)]) Ht) as (got' & Hs & Hg). exists ((w, x) :: got'). split.
    + econstructor; [by apply ts_load|]. by rewrite <- app_assoc in Hs.
    + intros w' x' Hw' Hx'. apply elem_of_cons in Hw' as [-> | Hw'].
      * rewrite Hx in Hx'. injection Hx' as ->. by left.
      * right. by apply Hg.
Qed.

(** The words read first are of the old value, the others of the new one. *)
Lemma tear v u order ro1 ro2 : length u = length v ->
  Permutation order (seq 0 (length v)) -> Permutation (ro1 ++ ro2) (seq 0 (length v)) ->
  exists s, tsteps (t_start v [(u, order)] (ro1 ++ ro2)) s /\ t_writers s = [(u, [])] /\
    (forall w x, w ∈ ro1 -> v !! w = Some x -> t_read s w x) /\
    (forall w x, w ∈ ro2 -> u !! w = Some x -> t_read s w x).
Proof.
  intros Hl Hor Hro.
  assert (Hlt : forall l, Permutation l (seq 0 (length v)) -> Forall (fun w => (w < length v)%nat) l).
  { intros l Hp. apply Forall_forall. intros w Hw. rewrite Hp in Hw. apply elem_of_seq in Hw. lia. }
  pose proof (Hlt _ Hor) as Ho. pose proof (Hlt _ Hro) as Hr. apply Forall_app in Hr as [Hr1 Hr2].
  assert (L1 : forall ro got, Forall (fun w => (w < length v)%nat) ro ->
    exists got', tsteps (TState v [(u, order)] (ro ++ ro2) got) (TState v [(u, order)] ro2 (got ++ got')) /\
      forall w x, w ∈ ro -> v !! w = Some x -> (w, x) ∈ got').
  { induction ro as [|w ro IH]; intros got Hf.
    - exists []. rewrite app_nil_r. split; [constructor|]. intros w x Hw. by apply elem_of_nil in Hw.
    - apply Forall_cons in Hf as [Hw Hf]. destruct (lookup_lt_is_Some_2 v w Hw) as [x Hx].
      destruct (IH (got ++ [(w, x)]) Hf) as (got' & Hs & Hg). exists ((w, x) :: got'). split.
      + econstructor; [by apply ts_load|]. by rewrite <- app_assoc in Hs.
      + intros w' x' Hw' Hx'. apply elem_of_cons in Hw' as [-> | Hw'].
        * rewrite Hx in Hx'. injection Hx' as ->. by left.
        * right. by apply Hg. }
  destruct (L1 ro1 [] Hr1) as (g1 & S1 & G1).
  destruct (store_all [(u, order)] 0 v u order ro2 g1 eq_refl Hl Ho) as (ws & S2 & Hlw & Hw & _).
  destruct (load_all ws [(u, [])] ro2 g1) as (g2 & S3 & G2); [by rewrite Hlw|].
  eexists. split; [eapply tsteps_trans; [exact S1|]; eapply tsteps_trans; [exact S2|exact S3]|].
  split; [done|]. unfold t_read. cbn [t_todo t_got]. split; intros w x Hin Hx; (split; [done|]); apply elem_of_app.
  - left. by apply G1.
  - right. apply G2; [done|]. rewrite Hw; [done|]. rewrite Hor. apply elem_of_seq.
    apply lookup_lt_Some in Hx. lia.
Qed.

(** * C110
    Full claim: a request that reads the name of a namespace, or the list of
    namespaces, while other requests change it, gets the name or the list as it was
    before one of these changes or after it, and reads nothing else in memory.
    True is C110_words, and what follows from it when the values in question differ in
    one word only (C110_name_partial, C110_list_partial below). *)

(** False for names: whatever the orders in which the words are read and stored, for
    any two names of different lengths, one renaming is enough for a reading to give
    the shorter name with the bytes [x] that follow it in memory, up to the length of
    the longer. *)
Theorem C110_name_refuted : forall ro wo (m1 a x m2 b m3 : list byte),
  Permutation ro [0; 1]%nat -> Permutation wo [0; 1]%nat ->
  (length a + length x = length b)%nat ->
  let m := m1 ++ a ++ x ++ m2 ++ b ++ m3 in
  let va := [length m1; length a] in
  let vb := [length (m1 ++ a ++ x ++ m2); length b] in
  bytes_at m (length m1) (length a) = Some a /\
  bytes_at m (length (m1 ++ a ++ x ++ m2)) (length b) = Some b /\
  exists before after s address len,
    (before = va /\ after = vb \/ before = vb /\ after = va) /\
    tsteps (t_start before [(after, wo)] ro) s /\ t_read s 0 address /\ t_read s 1 len /\
    bytes_at m address len = Some (a ++ x).
Proof.
  intros ro wo m1 a x m2 b m3 Hro Hwo Hx m va vb.
  assert (Hat : forall m1 l m2, bytes_at (m1 ++ l ++ m2) (length m1) (length l) = Some l).
  { intros p l q. unfold bytes_at. rewrite !app_length.
    replace (length p + length l <=? length p + (length l + length q))%nat with true by (symmetry; apply Nat.leb_le; lia).
    rewrite drop_app_alt by done. by rewrite take_app_alt. }
  split; [apply Hat|]. split.
  { unfold m. rewrite !(app_assoc _ _ (b ++ m3)), <- ?app_assoc.
    replace (m1 ++ a ++ x ++ m2 ++ b ++ m3) with ((m1 ++ a ++ x ++ m2) ++ b ++ m3) by (by rewrite <- !app_assoc). apply Hat. }
  assert (Hbad : bytes_at m (length m1) (length b) = Some (a ++ x)).
  { unfold m. rewrite <- Hx, <- app_length. replace (a ++ x ++ m2 ++ b ++ m3) with ((a ++ x) ++ m2 ++ b ++ m3) by (by rewrite <- !app_assoc).
    apply Hat. }
  assert (Hcase : ro = [0; 1]%nat \/ ro = [1; 0]%nat).
  { apply Permutation_sym in Hro. by apply Permutation_length_2_inv in Hro. }
  destruct Hcase as [-> | ->].
  - destruct (tear va vb wo [0%nat] [1%nat]) as (s & Hs & _ & H0 & H1); [done..|].
    exists va, vb, s, (length m1), (length b). split; [by left|]. split; [exact Hs|].
    split; [by apply H0; [left|]|]. split; [by apply H1; [left|]|done].
  - destruct (tear vb va wo [1%nat] [0%nat]) as (s & Hs & _ & H0 & H1); [done..|].
    exists vb, va, s, (length m1), (length b). split; [by right|]. split; [exact Hs|].
    split; [by apply H1; [left|]|]. split; [by apply H0; [left|]|done].
Qed.
Print Assumptions C110_name_refuted.

(** True: if all the names in question have the same length, one of them is read.  The
    words [u] of a name: where it lies in memory and its length. *)
Definition name_words (m : list byte) (u : list nat) (name : list byte) : Prop :=
  exists m1 m2, m = m1 ++ name ++ m2 /\ u = [length m1; length name].

Theorem C110_name_partial : forall ro m v vs s address len n,
  Forall (fun u => exists name, name_words m u name /\ length name = n) (v :: map fst vs) ->
  tsteps (t_start v vs ro) s -> t_read s 0 address -> t_read s 1 len ->
  exists u name, u ∈ v :: map fst vs /\ name_words m u name /\ bytes_at m address len = Some name.
Proof.
  intros ro m v vs s address len n Hf Hs Ha Hl.
  rewrite Forall_forall in Hf.
  assert (Hlen : len = n).
  { destruct (C110_words _ _ _ _ _ _ Hs Hl) as [H | (u & Hu & H)].
    - destruct (Hf v) as (nm & (m1 & m2 & _ & ->) & <-); [by left|]. cbn in H. congruence.
    - destruct (Hf u) as (nm & (m1 & m2 & _ & ->) & <-); [by right|]. cbn in H. congruence. }
  subst len.
  assert (exists u, u ∈ v :: map fst vs /\ u !! 0%nat = Some address) as (u & Hu & H).
  { destruct (C110_words _ _ _ _ _ _ Hs Ha) as [H | (u & Hu & H)]; [exists v; split; [by left|done]|exists u; split; [by right|done]]. }
  destruct (Hf u Hu) as (nm & (m1 & m2 & E & ->) & <-). cbn in H. injection H as <-.
  exists [length m1; length nm], nm. split; [done|]. split; [by exists m1, m2|].
  rewrite E. unfold bytes_at. rewrite !app_length.
  replace (length m1 + length nm <=? length m1 + (length nm + length m2))%nat with true by (symmetry; apply Nat.leb_le; lia).
  by rewrite drop_app_alt, take_app_alt.
Qed.
Print Assumptions C110_name_partial.

(** False for the list, if the address is read before the length: whatever the rest of
    the order, and the order in which the new header is stored, a creation that needs a
    new array is enough for a listing to go on beyond the end of the old one. *)
Theorem C110_list_refuted : forall grow ro1 ro2 wo m a (p : Z) m' h',
  arr m a <> [] -> let h := Slice a 0 (length (arr m a)) (length (arr m a)) in
  Permutation wo [0; 1; 2]%nat -> Permutation (ro1 ++ 0%nat :: ro2) [0; 1; 2]%nat -> 1%nat ∈ ro2 ->
  append_slice 0 grow m h [p] = (m', h') ->
  elements_at m' (sl_arr h) (sl_len h) = Some (view m h) /\
  elements_at m' (sl_arr h') (sl_len h') = Some (view m h ++ [p]) /\
  exists s array len,
    tsteps (t_start (header_words h) [(header_words h', wo)] (ro1 ++ 0%nat :: ro2)) s /\
    t_read s 0 array /\ t_read s 1 len /\ elements_at m' array len = None.
Proof.
  intros grow ro1 ro2 wo m a p m' h' Hne h Hwo Hro Hin. set (n := length (arr m a)) in *.
  unfold append_slice. cbn [h sl_len sl_cap length].
  replace (n + 1 <=? n)%nat with false by (symmetry; apply Nat.leb_gt; lia).
  set (id := fresh (dom m)). set (room := grow id (n + 1)%nat). fold h.
  assert (Hv : view m h = arr m a).
  { unfold view. cbn [h sl_len sl_off sl_arr]. rewrite drop_0. by apply take_ge. }
  rewrite Hv. intros E. injection E as <- <-.
  assert (Hid : m !! id = None) by (apply not_elem_of_dom, is_fresh).
  assert (Hai : a <> id) by (intros ->; apply Hne; unfold arr; by rewrite Hid).
  set (new := arr m a ++ _).
  assert (Hnew : length new = (n + (1 + room))%nat).
  { unfold new. cbn [app]. rewrite app_length. cbn [length]. rewrite replicate_length. done. }
  assert (Ho : arr (<[id := new]> m) a = arr m a) by (unfold arr at 1; by rewrite lookup_insert_ne).
  assert (Hn : arr (<[id := new]> m) id = new) by (unfold arr at 1; by rewrite lookup_insert).
  cbn [h sl_arr sl_len]. unfold elements_at. rewrite Ho, Hn. fold n. split; [|split].
  - rewrite Nat.leb_refl. by rewrite take_ge.
  - replace (n + 1 <=? length new)%nat with true by (symmetry; apply Nat.leb_le; lia). f_equal. unfold new.
    replace (arr m a ++ _) with ((arr m a ++ [p]) ++ replicate room 0) by (by rewrite <- app_assoc).
    apply take_app_alt. rewrite app_length. done.
  - destruct (tear (header_words h) (header_words (Slice id 0 (n + 1) (n + 1 + room))) wo (ro1 ++ [0%nat]) ro2)
      as (s & Hs & _ & H0 & H1); [done|done|by rewrite <- app_assoc|].
    rewrite <- app_assoc in Hs. exists s, a, (n + 1)%nat. split; [exact Hs|].
    split; [apply H0; [apply elem_of_app; right; by left|done]|]. split; [by apply H1|].
    rewrite Ho. fold n. by replace (n + 1 <=? n)%nat with false by (symmetry; apply Nat.leb_gt; lia).
Qed.
Print Assumptions C110_list_refuted.

(** False also if the length is read before the address, with three creations: two have
    evaluated append on the empty list, and one of them has stored its header; then a
    third has evaluated append on that list.  The listing reads the length that the
    third stores, and the array that the second stores. *)
Theorem C110_list_length_first_refuted : forall wo1 wo2 (p q r : Z),
  Permutation wo1 [0; 1; 2]%nat -> Permutation wo2 [0; 1; 2]%nat ->
  let room := fun _ _ => 0%nat in
  let '(m1, h1) := append_slice 0 room ∅ empty_slice [p] in
  let '(m2, h2) := append_slice 0 room m1 empty_slice [q] in
  let '(m3, h3) := append_slice 0 room m2 h2 [r] in
  exists s array len,
    tsteps (t_start (header_words h2) [(header_words h3, wo1); (header_words h1, wo2)] [1; 0; 2]%nat) s /\
    t_read s 0 array /\ t_read s 1 len /\ elements_at m3 array len = None.
Proof.
  intros wo1 wo2 p q r H1 H2 room. cbn [append_slice].
  assert (Hlt : forall l, Permutation l [0; 1; 2]%nat -> Forall (fun w => (w < 3)%nat) l).
  { intros l Hp. apply Forall_forall. intros w Hw. rewrite Hp in Hw. change [0; 1; 2]%nat with (seq 0 3) in Hw.
    apply elem_of_seq in Hw. lia. }
  destruct (append_slice 0 room ∅ empty_slice [p]) as [m1 h1] eqn:E1.
  destruct (append_slice 0 room m1 empty_slice [q]) as [m2 h2] eqn:E2.
  destruct (append_slice 0 room m2 h2 [r]) as [m3 h3] eqn:E3.
  destruct (store_all [(header_words h3, wo1); (header_words h1, wo2)] 0 (header_words h2) (header_words h3) wo1 [1; 0; 2]%nat [])
    as (ws1 & S1 & L1 & G1 & _); [done|done|by apply Hlt|].
  assert (Hg : ws1 !! 1%nat = Some (sl_len h3)) by (rewrite G1; [done|rewrite H1; set_solver]).
  destruct (store_all [(header_words h3, []); (header_words h1, wo2)] 1 ws1 (header_words h1) wo2 [0; 2]%nat [(1, sl_len h3)]%nat)
    as (ws2 & S3 & L2 & G2 & _); [done|by rewrite L1|rewrite L1; by apply Hlt|].
  destruct (load_all ws2 [(header_words h3, []); (header_words h1, [])] [0; 2]%nat [(1, sl_len h3)]%nat) as (g & S4 & G4).
  { rewrite L2, L1. repeat constructor. }
  eexists _, (sl_arr h1), (sl_len h3). split.
  { eapply tsteps_trans; [exact S1|]. eapply tsteps_step; [by apply ts_load|].
    eapply tsteps_trans; [exact S3|]. exact S4. }
  split; [split; [done|]; right; apply G4; [by left|]; rewrite G2; [done|]; rewrite H2; by left|].
  split; [split; [done|]; by left|].
  vm_compute in E1. injection E1 as <- <-. vm_compute in E2. injection E2 as <- <-. vm_compute in E3. injection E3 as <- <-.
  reflexivity.
Qed.
Print Assumptions C110_list_length_first_refuted.

(** True: if all the headers in question are of one array and within it, no element
    outside it is read, and the length is one that was stored. *)
Theorem C110_list_partial : forall ro m a v vs s array len,
  Forall (fun u => exists n c, u = [a; n; c] /\ (n <= length (arr m a))%nat) (v :: map fst vs) ->
  tsteps (t_start v vs ro) s -> t_read s 0 array -> t_read s 1 len ->
  elements_at m array len = Some (take len (arr m a)) /\
  exists u, u ∈ v :: map fst vs /\ u !! 1%nat = Some len.
Proof.
  intros ro m a v vs s array len Hf Hs Ha Hl. rewrite Forall_forall in Hf.
  assert (Har : array = a).
  { destruct (C110_words _ _ _ _ _ _ Hs Ha) as [H | (u & Hu & H)].
    - destruct (Hf v) as (n & c & -> & _); [by left|]. cbn in H. congruence.
    - destruct (Hf u) as (n & c & -> & _); [by right|]. cbn in H. congruence. }
  subst array.
  assert (Hu : exists u, u ∈ v :: map fst vs /\ u !! 1%nat = Some len).
  { destruct (C110_words _ _ _ _ _ _ Hs Hl) as [H | (u & Hu & H)]; [exists v; split; [by left|done]|].
    exists u. split; [by right|done]. }
  split; [|done]. destruct Hu as (u & Hu & H1). destruct (Hf u Hu) as (n & c & -> & Hn). cbn in H1. injection H1 as ->.
  unfold elements_at. by replace (len <=? length (arr m a))%nat with true by (symmetry; by apply Nat.leb_le).
Qed.
Print Assumptions C110_list_partial.

(** "ab" is renamed to "name" while it is read, with "!?" next to "ab" in memory. *)
Example C110_case :
  let m := ascii_bytes "ab!?name" in
  exists s, tsteps (t_start [0; 2]%nat [([4; 4], [1; 0])]%nat [0; 1]%nat) s /\ t_read s 0 0 /\ t_read s 1 4 /\
    bytes_at m 0 2 = Some (ascii_bytes "ab") /\ bytes_at m 4 4 = Some (ascii_bytes "name") /\
    bytes_at m 0 4 = Some (ascii_bytes "ab!?").
Proof.
  destruct (tear [0; 2]%nat [4; 4]%nat [1; 0]%nat [0%nat] [1%nat]) as (s & Hs & _ & H0 & H1); [done|by constructor|done|].
  exists s. split; [exact Hs|]. split; [by apply H0; [left|]|]. split; [by apply H1; [left|]|]. done.
Qed.

(** Names of equal length, and a list that has room in its array. *)
Example C110_equal_case :
  let m := ascii_bytes "abcd" in
  Forall (fun u => exists name, name_words m u name /\ length name = 2%nat)
    ([0; 2]%nat :: map fst [([2; 2], [0; 1])]%nat) /\
  Forall (fun u => exists n c, u = [0%nat; n; c] /\ (n <= length (arr {[0%nat := [5; 6]]} 0))%nat)
    ([0; 1; 2]%nat :: map fst [([0; 2; 2], [0; 1; 2])]%nat).
Proof.
  split; repeat constructor.
  - exists (ascii_bytes "ab"). split; [|done]. by exists [], (ascii_bytes "cd").
  - exists (ascii_bytes "cd"). split; [|done]. by exists (ascii_bytes "ab"), [].
  - exists 1%nat, 2%nat. split; [done|]. by vm_compute; lia.
  - exists 2%nat, 2%nat. split; [done|]. by vm_compute; lia.
Qed.
