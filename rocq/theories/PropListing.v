(** Property C81: a listing while the list changes. *)
From Verif Require Import Base Arrays SliceHeap SpecSlices SliceHeapFacts ListRace ListRaceFacts.

(** A request for the list, started in [s1] after the events [before] and answered with
    [got], while the events [es] happened and the states [during] were gone through. *)
Definition answered_listing grow (before es : list levent) (s1 : lstate) (during : list lstate)
    (got : list Z) : Prop :=
  exists past h, l_run grow l_init before = Some past /\ s1 = List.last past l_init /\
    l_run grow s1 (LList :: es) = Some during /\
    l_read (List.last during s1) = Some (h, got) /\ length got = sl_len h.

(** [p] is in the list in [s1] and in every state until the answer. *)
Definition there_all_the_time (p : Z) (s1 : lstate) (during : list lstate) : Prop :=
  p ∈ l_listed s1 /\ forall s, s ∈ during -> p ∈ l_listed s.

Definition times (p : Z) (l : list Z) : nat := length (filter (fun x => x = p) l).

(** Full claim: a namespace that is there all the time is in the answer exactly once.
    A deletion can make it appear twice, and, with a creation after it, hide it. *)
Theorem C81_listing_refuted :
  ~ (forall grow before es s1 during got p,
       answered_listing grow before es s1 during got -> there_all_the_time p s1 during ->
       (times p got <= 1)%nat) /\
  ~ (forall grow before es s1 during got p,
       answered_listing grow before es s1 during got -> there_all_the_time p s1 during ->
       p ∈ got).
Proof.
  set (grow := fun _ _ : nat => 1%nat).
  set (three := [LLoad 1; LStore 0; LLoad 2; LStore 0; LLoad 3; LStore 0]).
  assert (forall es s1 during got,
    s1 = List.last (default [] (l_run grow l_init three)) l_init ->
    l_run grow s1 (LList :: es) = Some during ->
    forallb (fun s => bool_decide (3 ∈ l_listed s)) (s1 :: during) = true ->
    (exists h, l_read (List.last during s1) = Some (h, got) /\ length got = sl_len h) ->
    answered_listing grow three es s1 during got /\ there_all_the_time 3 s1 during) as Hex.
  { intros es s1 during got E1 E2 Hall (h & Hr & Hl). split.
    - exists (default [] (l_run grow l_init three)), h. split; [vm_compute; reflexivity|]. done.
    - cbn [forallb] in Hall. apply andb_prop in Hall as [Ha Hb].
      split; [by apply bool_decide_eq_true in Ha|]. intros s Hs.
      rewrite forallb_forall in Hb. apply elem_of_list_In in Hs.
      by apply Hb, bool_decide_eq_true in Hs. }
  split; intros H.
  - set (es := [LDelete 0; LRead; LRead; LRead]).
    set (s1 := List.last (default [] (l_run grow l_init three)) l_init).
    set (during := default [] (l_run grow s1 (LList :: es))).
    destruct (Hex es s1 during [3; 2; 3]) as [A B]; [done|vm_compute; reflexivity|vm_compute; reflexivity| |].
    { eexists. split; [vm_compute; reflexivity|done]. }
    specialize (H _ _ _ _ _ _ _ A B). vm_compute in H. lia.
  - set (es := [LRead; LDelete 0; LLoad 4; LStore 0; LRead; LRead]).
    set (s1 := List.last (default [] (l_run grow l_init three)) l_init).
    set (during := default [] (l_run grow s1 (LList :: es))).
    destruct (Hex es s1 during [1; 2; 4]) as [A B]; [done|vm_compute; reflexivity|vm_compute; reflexivity| |].
    { eexists. split; [vm_compute; reflexivity|done]. }
    specialize (H _ _ _ _ _ _ _ A B). rewrite elem_of_list_In in H. cbn in H. lia.
Qed.
Print Assumptions C81_listing_refuted.

(** What holds: it is so for every interleaving of creations (which may overlap), if
    nothing was deleted.  It is even at the place it had.  The answer is as long as
    the list was and holds no nil.  Missing: deletions. *)
Theorem C81_listing_partial :
  forall grow before es s1 during got, no_delete before -> no_delete es ->
  answered_listing grow before es s1 during got ->
  length got = length (l_listed s1) /\
  (forall x, x ∈ got -> 0 < x /\ times x got = 1%nat) /\
  (forall p k, there_all_the_time p s1 during -> l_listed s1 !! k = Some p ->
     got !! k = Some p /\ times p got = 1%nat).
Proof.
  intros grow before es s1 during got Hn1 Hn2 (past & h & E1 & -> & E2 & Hr & Hl).
  destruct (l_run_inv grow before _ _ _ linv_init Hn1 E1) as [f I1].
  set (s1 := List.last past l_init) in *.
  assert (no_delete (LList :: es)) as Hn2'.
  { intros i Hi. apply elem_of_cons in Hi as [?|?]; [done|by apply (Hn2 i)]. }
  destruct (l_run_inv grow (LList :: es) f s1 during I1 Hn2' E2) as [f2 I2].
  destruct (li_read f2 _ I2 h got Hr) as (_ & _ & Hgot).
  assert (forall x, x ∈ got -> times x got = 1%nat) as Hone.
  { intros x Hx. apply elem_of_list_lookup in Hx as [i Hi]. unfold times.
    rewrite <- (take_drop_middle got i x Hi). rewrite filter_app, filter_cons_True by done.
    rewrite app_length. cbn.
    assert (forall l, (forall j y, l !! j = Some y -> y <> x) -> filter (fun y => y = x) l = []) as Hnil.
    { intros l H. destruct (filter (fun y => y = x) l) as [|z r] eqn:Ef; [done|].
      assert (z ∈ filter (fun y => y = x) l) as Hz by (rewrite Ef; by left).
      apply elem_of_list_filter in Hz as [-> Hz]. apply elem_of_list_lookup in Hz as [j Hj].
      by destruct (H j x Hj). }
    rewrite !Hnil; [done|..].
    - intros j y Hj ->. rewrite lookup_drop in Hj.
      destruct (Hgot i x Hi) as (_ & _ & F1 & _). destruct (Hgot _ x Hj) as (_ & _ & F2 & _). lia.
    - intros j y Hj ->. apply lookup_take_Some in Hj as [Hj Hlt].
      destruct (Hgot i x Hi) as (_ & _ & F1 & _). destruct (Hgot _ x Hj) as (_ & _ & F2 & _). lia. }
  (* after LList *)
  cbn in E2. destruct (l_read s1) as [q|] eqn:Hr1; [done|].
  set (s2 := LState (l_mem s1) (l_head s1) (l_pend s1) (l_used s1) (Some (l_head s1, []))) in *.
  destruct (l_run grow s2 es) as [l|] eqn:El; [|done]. injection E2 as <-.
  assert (List.last (s2 :: l) s1 = List.last l s2) as Hlast.
  { apply last_cons_default. }
  destruct (linv_step grow f s1 LList s2 I1) as (f3 & I3 & _); [done|cbn; by rewrite Hr1|].
  assert (sl_len h = sl_len (l_head s1)) as Hlen.
  { rewrite Hlast in Hr. by rewrite (l_run_reader grow es s2 l h got El (l_head s1) [] eq_refl Hr). }
  pose proof (li_head f s1 I1) as (Ho & H0 & Hpos).
  split; [unfold l_listed; rewrite view_length by done; congruence|].
  split.
  { intros x Hx. split; [|by apply Hone]. apply elem_of_list_lookup in Hx as [i Hi].
    by apply (Hgot i x Hi). }
  intros p k [_ Hall] Hk.
  assert (0 < p) as Hp by by eapply Hpos.
  assert (placed s2 p k) as Hpl.
  { apply view_at in Hk as (Hlt & a & Ha & Hx); [|done].
    exists (l_head s1), [], a. cbn. split; [done|]. split; [done|]. split; [done|]. split; [done|]. lia. }
  assert (placed (List.last l s2) p k) as (h' & got' & a & Hr' & Hlt & _ & _ & Hg).
  { apply (l_run_placed grow es f3 s2 l p k I3 Hp Hn2 El); [|done]. intros t Ht. apply Hall. by right. }
  rewrite <- Hlast, Hr in Hr'. injection Hr' as <- <-.
  assert (got !! k = Some p) as Hgk by (apply Hg; lia).
  split; [done|]. apply Hone. by eapply elem_of_list_lookup_2.
Qed.
Print Assumptions C81_listing_partial.

(** Two overlapping creations and a listing between them. *)
Example C81_case :
  let grow := fun _ _ : nat => 1%nat in
  let before := [LLoad 1; LStore 0; LLoad 2; LStore 0] in
  let es := [LLoad 3; LLoad 4; LRead; LStore 1; LStore 0; LRead] in
  let s1 := List.last (default [] (l_run grow l_init before)) l_init in
  exists during, no_delete before /\ no_delete es /\ l_listed s1 = [1; 2] /\
    answered_listing grow before es s1 during [1; 2] /\ there_all_the_time 2 s1 during /\
    l_listed (List.last during s1) = [1; 2; 3].
Proof.
  cbn zeta. eexists. split; [|split; [|split; [|split; [|split]]]].
  - intros i Hi. rewrite elem_of_list_In in Hi. cbn in Hi. naive_solver.
  - intros i Hi. rewrite elem_of_list_In in Hi. cbn in Hi. naive_solver.
  - vm_compute. reflexivity.
  - eexists _, _. split; [vm_compute; reflexivity|]. split; [vm_compute; reflexivity|].
    split; [vm_compute; reflexivity|]. split; [vm_compute; reflexivity|done].
  - split; [apply (bool_decide_unpack _); vm_compute; exact I|].
    apply Forall_forall. apply (bool_decide_unpack _). vm_compute. exact I.
  - vm_compute. reflexivity.
Qed.
