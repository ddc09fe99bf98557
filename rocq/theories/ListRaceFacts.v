(** Executions with creations and a listing, without deletions: a namespace keeps its
    position in every backing array. *)
From Verif Require Import Base Arrays SliceHeap SpecSlices SliceHeapFacts ListRace.

Definition head_ok (m : mem Z) (h : slice) : Prop :=
  owns m h /\ sl_off h = 0%nat /\ forall i x, view m h !! i = Some x -> 0 < x.

(** [f]: the position of every stored namespace. *)
Record linv (f : Z -> nat) (s : lstate) : Prop := {
  li_head : head_ok (l_mem s) (l_head s);
  li_pend : forall c h p, l_pend s !! c = Some (h, p) ->
    head_ok (l_mem s) h /\ 0 < p /\ p ∈ l_used s /\
    forall id a i, l_mem s !! id = Some a -> a !! i <> Some p;
  li_dup : NoDup (l_pend s).*2;
  li_mem : forall id a i x, l_mem s !! id = Some a -> a !! i = Some x ->
    x = 0 \/ (0 < x /\ x ∈ l_used s /\ f x = i);
  li_read : forall h got, l_read s = Some (h, got) ->
    head_ok (l_mem s) h /\ (length got <= sl_len h)%nat /\
    forall i x, got !! i = Some x -> 0 < x /\ x ∈ l_used s /\ f x = i /\ x ∉ (l_pend s).*2
}.

Lemma view_at (m : mem Z) h i x : sl_off h = 0%nat -> view m h !! i = Some x ->
  (i < sl_len h)%nat /\ exists a, m !! sl_arr h = Some a /\ a !! i = Some x.
Proof.
  unfold view, arr. intros -> H. rewrite drop_0 in H. apply lookup_take_Some in H as [H Hi].
  split; [done|]. destruct (m !! sl_arr h) as [a|]; cbn in H; [eauto|done].
Qed.

Lemma view_of (m : mem Z) h i x a : sl_off h = 0%nat -> (i < sl_len h)%nat ->
  m !! sl_arr h = Some a -> a !! i = Some x -> view m h !! i = Some x.
Proof. unfold view, arr. intros -> Hi -> Hx. cbn. by rewrite lookup_take. Qed.

(** append of one element, array by array. *)
Lemma append_cases grow (m : mem Z) h p : head_ok m h -> 0 < p ->
  exists m' h', append_slice 0 grow m h [p] = (m', h') /\ head_ok m' h' /\
    sl_len h' = S (sl_len h) /\ view m' h' = view m h ++ [p] /\
    ((exists a, m !! sl_arr h = Some a /\ (sl_len h < length a)%nat /\ sl_arr h' = sl_arr h /\
        m' = <[sl_arr h := <[sl_len h := p]> a]> m) \/
     (exists id r, m !! id = None /\ sl_arr h' = id /\
        m' = <[id := view m h ++ p :: replicate r 0]> m)).
Proof.
  intros (Ho & H0 & Hpos) Hp. destruct (append_spec 0 grow m h [p] Ho) as (Hv & Hk & Hn).
  unfold append_slice in *. destruct (Nat.leb_spec (sl_len h + length [p]) (sl_cap h)) as [Hc|Hc]; cbn [fst snd] in *.
  - eexists _, _. split; [done|].
    assert (forall i x, (view m h ++ [p]) !! i = Some x -> 0 < x) as Hpos'.
    { intros i x Hx. apply lookup_app_Some in Hx as [Hx|[_ Hx]]; [eauto|].
      by apply list_lookup_singleton_Some in Hx as [_ <-]. }
    split; [split; [exact (proj1 Hk)|split; [done|by rewrite Hv]]|]. split; [rewrite Hn; cbn; lia|].
    split; [done|]. left. destruct Ho as [Hl [H|(a & Ha & Hb)]]; [cbn in *; lia|].
    exists a. split; [done|]. cbn in *. split; [lia|]. split; [done|].
    unfold store, arr. rewrite Ha, H0. done.
  - eexists _, _. split; [done|].
    assert (forall i x, (view m h ++ [p]) !! i = Some x -> 0 < x) as Hpos'.
    { intros i x Hx. apply lookup_app_Some in Hx as [Hx|[_ Hx]]; [eauto|].
      by apply list_lookup_singleton_Some in Hx as [_ <-]. }
    split; [split; [exact (proj1 Hk)|split; [done|by rewrite Hv]]|]. split; [rewrite Hn; cbn; lia|].
    split; [done|]. right. eexists _, _. split; [apply not_elem_of_dom, is_fresh|]. split; [done|].
    done.
Qed.

(** Other headers stay good when one element is appended through [h]. *)
Lemma head_ok_append grow m h p m' h' g : head_ok m h -> 0 < p ->
  append_slice 0 grow m h [p] = (m', h') -> head_ok m g -> head_ok m' g.
Proof.
  intros Hh Hp E ([Hl Ho] & H0 & Hpos).
  destruct (append_cases grow m h p Hh Hp) as (m1 & h1 & E1 & _ & _ & _ & Hm).
  rewrite E in E1. injection E1 as <- <-.
  destruct Hm as [(a & Ha & Hlt & _ & ->)|(id & r & Hid & _ & ->)].
  - split; [split; [done|]|split; [done|]].
    + destruct Ho as [Ho|(b & Hb & Hbb)]; [by left|right].
      destruct (decide (sl_arr g = sl_arr h)) as [Eg|Eg].
      * rewrite Eg, lookup_insert. eexists. split; [done|]. rewrite insert_length. congruence.
      * rewrite lookup_insert_ne by done. eauto.
    + intros i x Hx. apply view_at in Hx as (Hi & b & Hb & Hx); [|done].
      destruct (decide (sl_arr g = sl_arr h)) as [Eg|Eg].
      * rewrite Eg, lookup_insert in Hb. injection Hb as <-.
        destruct (decide (i = sl_len h)) as [->|Hne].
        -- rewrite list_lookup_insert in Hx by done. congruence.
        -- rewrite list_lookup_insert_ne in Hx by done. apply (Hpos i x).
           eapply view_of; eauto. by rewrite Eg.
      * rewrite lookup_insert_ne in Hb by done. apply (Hpos i x). eapply view_of; eauto.
  - split; [split; [done|]|split; [done|]].
    + destruct Ho as [Ho|(b & Hb & Hbb)]; [by left|right].
      rewrite lookup_insert_ne by congruence. eauto.
    + destruct Ho as [Ho|(b & Hb & Hbb)].
      * intros i x Hx. apply view_at in Hx as (Hi & _); [lia|done].
      * intros i x Hx. apply view_at in Hx as (Hi & c & Hc & Hx); [|done].
        rewrite lookup_insert_ne in Hc by congruence. apply (Hpos i x). eapply view_of; eauto.
Qed.

Lemma linv_init : linv (fun _ => 0%nat) l_init.
Proof.
  assert (head_ok ∅ empty_slice) as Hh.
  { split; [split; cbn; [lia|by left]|]. split; [done|]. intros i x Hx.
    apply view_at in Hx as (Hi & _); [cbn in Hi; lia|done]. }
  split; cbn; [done|done|constructor|by intros * ?%lookup_empty_Some|done].
Qed.

(** The elements of memory after an append: the new one, or an old one at its place. *)
Lemma mem_append grow f s h p m' h' id a i x :
  head_ok (l_mem s) h -> 0 < p -> append_slice 0 grow (l_mem s) h [p] = (m', h') ->
  (forall id a i x, l_mem s !! id = Some a -> a !! i = Some x ->
    x = 0 \/ (0 < x /\ x ∈ l_used s /\ f x = i)) ->
  m' !! id = Some a -> a !! i = Some x ->
  x = 0 \/ (x = p /\ i = sl_len h) \/
  (0 < x /\ x ∈ l_used s /\ f x = i /\ exists id' a', l_mem s !! id' = Some a' /\ a' !! i = Some x).
Proof.
  intros Hh Hp E Hmem Hid Hi.
  destruct (append_cases grow (l_mem s) h p Hh Hp) as (m1 & h1 & E1 & _ & _ & _ & Hm).
  rewrite E in E1. injection E1 as <- <-. destruct Hh as ([Hl Ho] & H0 & Hpos).
  destruct Hm as [(b & Hb & Hlt & _ & ->)|(id0 & r & Hid0 & _ & ->)].
  - destruct (decide (id = sl_arr h)) as [->|Hne].
    + rewrite lookup_insert in Hid. injection Hid as <-.
      destruct (decide (i = sl_len h)) as [->|Hni].
      * rewrite list_lookup_insert in Hi by done. injection Hi as <-. auto.
      * rewrite list_lookup_insert_ne in Hi by done. destruct (Hmem _ _ _ _ Hb Hi) as [?|(?&?&?)]; eauto 10.
    + rewrite lookup_insert_ne in Hid by done. destruct (Hmem _ _ _ _ Hid Hi) as [?|(?&?&?)]; eauto 10.
  - destruct (decide (id = id0)) as [->|Hne].
    + rewrite lookup_insert in Hid. injection Hid as <-.
      pose proof (view_length (l_mem s) h (conj Hl Ho)) as Hlen.
      apply lookup_app_Some in Hi as [Hi|[Hge Hi]].
      * apply view_at in Hi as (_ & b & Hb & Hi); [|done].
        destruct (Hmem _ _ _ _ Hb Hi) as [?|(?&?&?)]; eauto 10.
      * apply lookup_cons_Some in Hi as [[Hz <-]|[Hz Hi]].
        -- right; left. split; [done|]. lia.
        -- apply lookup_replicate in Hi as [-> _]. auto.
    + rewrite lookup_insert_ne in Hid by done. destruct (Hmem _ _ _ _ Hid Hi) as [?|(?&?&?)]; eauto 10.
Qed.

Lemma pend_delete (l : list (slice * Z)) c x : x ∈ (delete c l).*2 -> x ∈ l.*2.
Proof.
  intros Hx. apply elem_of_list_fmap in Hx as (y & -> & Hy). apply elem_of_list_fmap.
  exists y. split; [done|]. eapply elem_of_submseteq; [exact Hy|].
  apply sublist_submseteq, sublist_delete.
Qed.

Lemma linv_step grow f s e s' : linv f s -> (forall i, e <> LDelete i) -> l_step grow s e = Some s' ->
  exists f', linv f' s' /\ (forall x id a i, l_mem s !! id = Some a -> a !! i = Some x -> 0 < x -> f' x = f x) /\
    (forall h got i x, l_read s = Some (h, got) -> got !! i = Some x -> f' x = f x).
Proof.
  intros I Hnd E. destruct I as [Ihead Ipend Idup Imem Iread].
  destruct e as [p|c|i| |]; cbn in E.
  - destruct (Z.ltb_spec 0 p) as [Hp|]; [|done]. cbn in E.
    case_bool_decide as Hu; [done|]. cbn in E. injection E as <-.
    exists f. split; [|done]. split; cbn.
    + done.
    + intros c h q Hc. apply lookup_app_Some in Hc as [Hc|[_ Hc]].
      * destruct (Ipend c h q Hc) as (A & B & C & D). split; [done|]. split; [done|]. split; [by right|done].
      * apply list_lookup_singleton_Some in Hc as [_ [= <- <-]].
        split; [done|]. split; [done|]. split; [by left|].
        intros id a i Ha Hi. destruct (Imem _ _ _ _ Ha Hi) as [?|(?&?&?)]; [lia|done].
    + rewrite fmap_app. apply NoDup_app. split; [done|]. split; [|apply NoDup_singleton].
      intros x Hx Hx'. apply elem_of_list_singleton in Hx'. cbn in Hx'. subst x.
      apply elem_of_list_fmap in Hx as ([h q] & -> & Hq). apply elem_of_list_lookup in Hq as [c Hc].
      by destruct (Ipend c h q Hc) as (_ & _ & ? & _).
    + intros id a i x Ha Hi. destruct (Imem _ _ _ _ Ha Hi) as [?|(?&?&?)]; [by left|right].
      split; [done|]. split; [by right|done].
    + intros h got Hr. destruct (Iread h got Hr) as (A & B & C). split; [done|]. split; [done|].
      intros i x Hx. destruct (C i x Hx) as (C1 & C2 & C3 & C4). split; [done|]. split; [by right|].
      split; [done|]. rewrite fmap_app, not_elem_of_app. split; [done|].
      intros Hx'. apply elem_of_list_singleton in Hx'. cbn in Hx'. congruence.
  - destruct (l_pend s !! c) as [[h p]|] eqn:Hc; [|done].
    destruct (append_slice 0 grow (l_mem s) h [p]) as [m h'] eqn:Ea. injection E as <-.
    destruct (Ipend c h p Hc) as (Hh & Hp & Hpu & Hps).
    set (f' := fun x => if bool_decide (x = p) then sl_len h else f x).
    assert (p ∈ (l_pend s).*2) as Hpin.
    { apply elem_of_list_fmap. exists (h, p). split; [done|]. by eapply elem_of_list_lookup_2. }
    assert (forall x, x <> p -> f' x = f x) as Hf by (intros x Hx; unfold f'; by rewrite bool_decide_false).
    assert (f' p = sl_len h) as Hfp by (unfold f'; by rewrite bool_decide_true).
    assert (p ∉ (delete c (l_pend s)).*2) as Hpd.
    { intros Hin. pose proof (delete_Permutation _ _ _ Hc) as HP.
      pose proof (fmap_Permutation snd _ _ HP) as HP2. cbn in HP2. rewrite HP2 in Idup.
      apply NoDup_cons in Idup as [? _]. done. }
    exists f'. split; [split; cbn|split].
    + destruct (append_cases grow (l_mem s) h p Hh Hp) as (m1 & h1 & E1 & Hok & _).
      rewrite Ea in E1. by injection E1 as <- <-.
    + intros d g q Hd.
      assert ((g, q) ∈ delete c (l_pend s)) as Hin by by eapply elem_of_list_lookup_2.
      assert ((g, q) ∈ l_pend s) as Hin'.
      { eapply elem_of_submseteq; [exact Hin|]. apply sublist_submseteq, sublist_delete. }
      apply elem_of_list_lookup in Hin' as [d' Hd'].
      destruct (Ipend d' g q Hd') as (A & B & C & D). split; [exact (head_ok_append grow (l_mem s) h p m h' g Hh Hp Ea A)|].
      split; [done|]. split; [done|]. intros id a i Ha Hi.
      destruct (mem_append grow f s h p m h' id a i q Hh Hp Ea Imem Ha Hi)
        as [?|[[? ?]|(? & ? & ? & id' & a' & ? & ?)]]; [lia| |by eapply D].
      subst q. apply Hpd. apply elem_of_list_fmap. by exists (g, p).
    + pose proof (delete_Permutation _ _ _ Hc) as HP.
      pose proof (fmap_Permutation snd _ _ HP) as HP2. cbn in HP2. rewrite HP2 in Idup.
      by apply NoDup_cons in Idup as [_ ?].
    + intros id a i x Ha Hi.
      destruct (mem_append grow f s h p m h' id a i x Hh Hp Ea Imem Ha Hi)
        as [?|[[-> ->]|(? & ? & ? & id' & a' & Ha' & Hi')]]; [by left|right; done|right].
      split; [done|]. split; [done|]. rewrite Hf; [done|]. intros ->. by eapply Hps.
    + intros g got Hr. destruct (Iread g got Hr) as (A & B & C). split; [exact (head_ok_append grow (l_mem s) h p m h' g Hh Hp Ea A)|].
      split; [done|]. intros i x Hx. destruct (C i x Hx) as (C1 & C2 & C3 & C4).
      split; [done|]. split; [done|]. split; [rewrite Hf; [done|]; by intros ->|].
      intros Hin. by apply C4, (pend_delete _ c).
    + intros x id a i Ha Hi _. apply Hf. intros ->. by eapply Hps.
    + intros g got i x Hr Hx. destruct (Iread g got Hr) as (_ & _ & C).
      destruct (C i x Hx) as (_ & _ & _ & C4). apply Hf. by intros ->.
  - by destruct (Hnd i).
  - destruct (l_read s) eqn:Hr; [done|]. injection E as <-. exists f. split; [|done].
    split; cbn; [done..|]. intros h got [= <- <-]. split; [done|]. split; [cbn; lia|]. done.
  - destruct (l_read s) as [[h got]|] eqn:Hr; [|done].
    destruct (Iread h got eq_refl) as (A & B & C).
    unfold at_index in E. destruct (Z.ltb_spec (Z.of_nat (length got)) 0); [lia|].
    rewrite Nat2Z.id in E. destruct (view (l_mem s) h !! length got) as [x|] eqn:Hx; [|done].
    injection E as <-. exists f. split; [|done]. split; cbn; [done..|].
    intros h' got' [= <- <-]. split; [done|].
    pose proof A as (A1 & A2 & A3). apply view_at in Hx as Hx2; [|done].
    destruct Hx2 as (Hlt & a & Ha & Hi). rewrite app_length. cbn. split; [lia|].
    intros i y Hy. apply lookup_app_Some in Hy as [Hy|[Hge Hy]]; [by apply C|].
    apply list_lookup_singleton_Some in Hy as [Hi0 <-].
    destruct (Imem _ _ _ _ Ha Hi) as [->|(P1 & P2 & P3)]; [by apply A3 in Hx|].
    split; [done|]. split; [done|]. split; [lia|]. intros Hin.
    apply elem_of_list_fmap in Hin as ([g q] & Eq & Hq). cbn in Eq. subst q.
    apply elem_of_list_lookup in Hq as [c Hc]. destruct (Ipend c g x Hc) as (_ & _ & _ & D).
    by apply (D _ _ _ Ha Hi).
Qed.

(** While a namespace stays in the list, it stays at its place in the array the listing
    reads. *)
Definition placed (s : lstate) (p : Z) (k : nat) : Prop :=
  exists h got a, l_read s = Some (h, got) /\ (k < sl_len h)%nat /\
    l_mem s !! sl_arr h = Some a /\ a !! k = Some p /\
    ((k < length got)%nat -> got !! k = Some p).

Lemma placed_step grow f s e s' p k : linv f s -> 0 < p -> (forall i, e <> LDelete i) ->
  l_step grow s e = Some s' -> p ∈ l_listed s' -> placed s p k -> placed s' p k.
Proof.
  intros I Hp Hnd E Hin (h & got & a & Hr & Hk & Ha & Hx & Hg).
  destruct e as [q|c|i| |]; cbn in E.
  - destruct ((0 <? q) && _); [|done]. injection E as <-. by exists h, got, a.
  - destruct (l_pend s !! c) as [[g q]|] eqn:Hc; [|done].
    destruct (append_slice 0 grow (l_mem s) g [q]) as [m g'] eqn:Ea. injection E as <-.
    destruct (li_pend f s I c g q Hc) as (Hh & Hq & Hqu & Hqs).
    destruct (append_cases grow (l_mem s) g q Hh Hq) as (m1 & h1 & E1 & Hok & _ & Hv & Hm).
    rewrite Ea in E1. injection E1 as <- <-.
    destruct Hm as [(b & Hb & Hlt & Hgarr & Hm)|(id & r & Hid & _ & Hm)].
    + destruct (decide (sl_arr h = sl_arr g)) as [Eg|Eg].
      * assert (b = a) as -> by congruence.
        destruct (decide (k = sl_len g)) as [->|Hne].
        -- exfalso. unfold l_listed in Hin. cbn in Hin. rewrite Hv in Hin.
           assert (f p = sl_len g) as Hfp.
           { destruct (li_mem f s I _ _ _ _ Ha Hx) as [?|(_ & _ & ?)]; [lia|done]. }
           apply elem_of_app in Hin as [Hin|Hin].
           ++ apply elem_of_list_lookup in Hin as [j Hj].
              apply view_at in Hj as (Hj & b & Hb' & Hbj); [|apply Hh].
              destruct (li_mem f s I _ _ _ _ Hb' Hbj) as [?|(_ & _ & ?)]; lia.
           ++ apply elem_of_list_singleton in Hin. subst q. by apply (Hqs _ _ _ Ha Hx).
        -- exists h, got, (<[sl_len g := q]> a). split; [done|]. split; [done|]. cbn.
           rewrite Hm, Eg, lookup_insert. split; [done|]. split; [by rewrite list_lookup_insert_ne|done].
      * exists h, got, a. cbn. split; [done|]. split; [done|]. rewrite Hm, lookup_insert_ne by done. done.
    + exists h, got, a. cbn. split; [done|]. split; [done|]. rewrite Hm, lookup_insert_ne by congruence. done.
  - by destruct (Hnd i).
  - rewrite Hr in E. done.
  - rewrite Hr in E. unfold at_index in E. destruct (Z.ltb_spec (Z.of_nat (length got)) 0); [lia|].
    rewrite Nat2Z.id in E. destruct (view (l_mem s) h !! length got) as [x|] eqn:Hv; [|done].
    injection E as <-. exists h, (got ++ [x]), a. cbn. split; [done|]. split; [done|]. split; [done|].
    split; [done|]. rewrite app_length. cbn. intros Hlt.
    destruct (decide (k = length got)) as [->|Hne].
    + rewrite lookup_app_r, Nat.sub_diag by lia. cbn.
      destruct (li_read f s I h got Hr) as ((_ & H0 & _) & _).
      apply view_at in Hv as (_ & b & Hb & Hv); [|done]. congruence.
    + apply lookup_app_l_Some. apply Hg. lia.
Qed.

Definition no_delete (es : list levent) : Prop := forall i, LDelete i ∉ es.

Lemma no_delete_cons e es : no_delete (e :: es) -> (forall i, e <> LDelete i) /\ no_delete es.
Proof.
  intros H. split; [intros i ->; apply (H i); by left|]. intros i Hi. apply (H i). by right.
Qed.

Lemma last_cons_default {A} (l : list A) a b : List.last (a :: l) b = List.last l a.
Proof.
  destruct l as [|x l]; [done|]. revert x. induction l as [|y l IHl]; intros x; cbn; [done|]. apply IHl.
Qed.

Lemma l_run_inv grow es : forall f s during, linv f s -> no_delete es ->
  l_run grow s es = Some during -> exists f', linv f' (List.last during s).
Proof.
  induction es as [|e es IH]; intros f s during I Hnd E; cbn in E.
  - injection E as <-. by exists f.
  - apply no_delete_cons in Hnd as [Hd Hnd]. destruct (l_step grow s e) as [s'|] eqn:Es; [|done].
    destruct (l_run grow s' es) as [l|] eqn:El; [|done]. injection E as <-.
    destruct (linv_step grow f s e s' I Hd Es) as (f' & I' & _).
    destruct (IH f' s' l I' Hnd El) as [f2 I2]. exists f2.
    by rewrite last_cons_default.
Qed.

Lemma l_run_placed grow es : forall f s during p k, linv f s -> 0 < p -> no_delete es ->
  l_run grow s es = Some during -> (forall t, t ∈ during -> p ∈ l_listed t) ->
  placed s p k -> placed (List.last during s) p k.
Proof.
  induction es as [|e es IH]; intros f s during p k I Hp Hnd E Hall Hpl; cbn in E.
  - injection E as <-. done.
  - apply no_delete_cons in Hnd as [Hd Hnd]. destruct (l_step grow s e) as [s'|] eqn:Es; [|done].
    destruct (l_run grow s' es) as [l|] eqn:El; [|done]. injection E as <-.
    destruct (linv_step grow f s e s' I Hd Es) as (f' & I' & _).
    assert (placed s' p k) as Hpl'.
    { apply (placed_step grow f s e s' p k I Hp Hd Es); [|done]. apply Hall. by left. }
    assert (placed (List.last l s') p k) as HL.
    { eapply (IH f' s' l p k); eauto. intros t Ht. apply Hall. by right. }
    by rewrite last_cons_default.
Qed.

Lemma l_run_reader grow es : forall s l h got, l_run grow s es = Some l ->
  forall h0 got0, l_read s = Some (h0, got0) -> l_read (List.last l s) = Some (h, got) -> h = h0.
Proof.
  induction es as [|e es IH]; intros s l h got E h0 got0 R0 R; cbn in E.
  - injection E as <-. cbn in R. congruence.
  - destruct (l_step grow s e) as [s'|] eqn:Es; [|done].
    destruct (l_run grow s' es) as [l'|] eqn:El'; [|done]. injection E as <-.
    assert (exists got1, l_read s' = Some (h0, got1)) as [got1 R1].
    { destruct e as [p|c|i| |]; cbn in Es.
      - destruct ((0 <? p) && _); [|done]. injection Es as <-. eauto.
      - destruct (l_pend s !! c) as [[g q]|]; [|done].
        destruct (append_slice 0 grow (l_mem s) g [q]). injection Es as <-. eauto.
      - destruct (m_remove (l_mem s) (l_head s) i) as [[m hh]| | |]; try done. injection Es as <-. eauto.
      - by rewrite R0 in Es.
      - rewrite R0 in Es. destruct (at_index _ _); try done. injection Es as <-. cbn. eauto. }
    rewrite last_cons_default in R. by apply (IH s' l' h got El' h0 got1 R1).
Qed.
