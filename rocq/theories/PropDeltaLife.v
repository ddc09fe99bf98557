(** Property C82: the delta file over many processes, each of which may die
    (internal/infra/delta/storage.go, storagefactory.go).

    [life bsz csz H s] (DeltaLife.v): [s] is open and [H] is all that happened to its file;
    [settled], [admissible] (SpecLife.v) say what [H] allows. *)
From Verif Require Import Base GoIO Lock Delta SpecFile SpecLock SpecCrash SpecDelta SpecLife DeltaSession DeltaLife
  GoIOFacts DeltaFacts DeltaStoreFacts DeltaHistFacts DeltaCrashFacts DeltaRecCrashFacts DeltaLifeFacts.

(** However the last process ended, the next one can open the file. *)
Theorem C82_always_opens :
  forall bsz csz H s, (0 < csz)%nat -> life bsz csz H s -> Z.of_nat (length H) < 2 ^ 32 ->
  (forall c s' j f, d_call bsz c s = (s', Ret tt) ->
   usable f -> f_pos f = 0%nat -> f_data f = crash_image (ds_file s) (ds_file s') j ->
   exists f' t, d_open_maybe_recover csz f = (f', Ret t) /\ life bsz csz (H ++ [LCrash]) t) /\
  (forall sh, exists s', d_close bsz sh s = (s', Ret tt) /\
   forall j f, usable f -> f_pos f = 0%nat -> f_data f = crash_image (ds_file s) (ds_file s') j ->
   exists f' t, d_open_maybe_recover csz f = (f', Ret t) /\
     (life bsz csz (H ++ [LCrash]) t \/ life bsz csz (H ++ [LDo EvFlush]) t)) /\
  (forall c, ev_typed (event_of c) ->
   exists s', d_call bsz c s = (s', Ret tt) /\ life bsz csz (H ++ [LDo (event_of c)]) s').
Proof.
  intros bsz csz H s Hcsz HL Hlen.
  destruct (life_inv _ _ _ _ Hcsz HL Hlen) as (h & H0 & Hs & Hl & HH & He & Ha).
  destruct (session_inv bsz h s Hs ltac:(lia)) as [E I]. split; [|split].
  - intros c s' j f Hc Hu Hp Hd.
    assert (exists f' t, d_open_maybe_recover csz f = (f', Ret t)) as (f' & t & Ho).
    { destruct (call_image bsz h E s c s' I ltac:(lia) Hc) as (sh & F & HF & Himg).
      destruct c as [op u i|sh'].
      - rewrite (Himg j) in Hd.
        destruct (crash_nothing bsz csz h E s f I ltac:(lia) Hcsz Hu Hp Hd) as (f' & t & ops & Ho & _). eauto.
      - destruct HF as [<- ->]. rewrite (Himg 0%nat) in Hd.
        destruct (crash_flush bsz csz h E s sh j f I ltac:(lia) Hcsz Hu Hp Hd) as (f' & t & Ho & _). eauto. }
    exists f', t. split; [done|]. by eapply life_crash_call.
  - intros sh. destruct (close_inv bsz sh h E s I ltac:(lia)) as (s' & Hc & Hd1 & _ & Hlog).
    exists s'. split; [done|]. intros j f Hu Hp Hd.
    destruct (decide (j < length (written_by (ds_file s) (ds_file s')))%nat) as [Hj | Hj].
    + destruct (crash_close bsz csz h E s sh s' j f I ltac:(lia) Hcsz Hc Hj Hu Hp Hd) as (f' & t & Ho & _).
      exists f', t. split; [done|]. left. by eapply life_crash_close.
    + assert (Hd' : f_data f = f_data (ds_file s')).
      { rewrite Hd. unfold crash_image. rewrite take_ge by lia.
        apply (close_replays bsz sh h E s s' I ltac:(lia) Hc). }
      destruct (open_unlocked csz f (E ++ visit sh (ds_new s))) as (f' & t & _ & Ho); try done.
      { apply Forall_app. split; [apply I|by apply (visit_typed h E)]. }
      { pose proof (di_total _ _ _ I). pose proof (di_bound _ _ _ I). rewrite app_length, visit_length. lia. }
      { by rewrite Hd'. }
      exists f', t. split; [done|]. right. by eapply life_reopen.
  - intros c Hc. destruct (call_inv bsz c h E s I ltac:(lia) Hc) as (s' & E' & Hcall & _).
    exists s'. split; [done|]. by eapply life_call.
Qed.
Print Assumptions C82_always_opens.

(** What is answered was added, and nothing that was flushed before a crash is older than
    it. *)
Theorem C82_answers_admissible :
  forall bsz csz H s, (0 < csz)%nat -> life bsz csz H s -> Z.of_nat (length H) < 2 ^ 32 ->
  forall user item, nothing_pending H user -> admissible H user item (d_get s user item).
Proof. intros bsz csz H s Hcsz HL Hlen u i Hp. by eapply life_get. Qed.
Print Assumptions C82_answers_admissible.

(** In particular the last operation on a pair, once flushed, is there for ever. *)
Theorem C82_flushed_survives :
  forall bsz csz H s, (0 < csz)%nat -> life bsz csz H s -> Z.of_nat (length H) < 2 ^ 32 ->
  forall n op user item, H !! n = Some (LDo (EvAdd op user item)) -> settled H n ->
  (forall m op', (n < m)%nat -> H !! m <> Some (LDo (EvAdd op' user item))) ->
  nothing_pending H user -> d_get s user item = Some op.
Proof.
  intros bsz csz H s Hcsz HL Hlen n op u i Hn Hs Hlast Hp.
  pose proof (life_get bsz csz H s u i Hcsz HL Hlen Hp) as Ha.
  destruct (d_get s u i) as [op'|]; cbn [admissible] in Ha.
  - destruct Ha as (m & Hm & Hr). destruct (decide (m = n)) as [-> |]; [congruence|].
    destruct (decide (m < n)%nat) as [Hlt |].
    + destruct (Hr n op Hlt Hn Hs).
    + destruct (Hlast m op'); [lia|done].
  - destruct (Ha n op Hn Hs).
Qed.
Print Assumptions C82_flushed_survives.

(** An operation that waits for a flush is answered too. *)
Theorem C82_pending_visible :
  forall bsz csz H s, (0 < csz)%nat -> life bsz csz H s -> Z.of_nat (length H) < 2 ^ 32 ->
  forall n op user item, H !! n = Some (LDo (EvAdd op user item)) ->
  (forall m, (n < m)%nat -> H !! m <> Some (LDo EvFlush) /\ H !! m <> Some LCrash /\
   forall op', H !! m <> Some (LDo (EvAdd op' user item))) ->
  d_get s user item = Some op.
Proof.
  intros bsz csz H s Hcsz HL Hlen n op u i Hn Hr.
  destruct (life_inv _ _ _ _ Hcsz HL Hlen) as (h & H0 & Hs & Hl & HH & He & _).
  destruct (session_inv bsz h s Hs ltac:(lia)) as [E I]. rewrite (inv_get h E s u i I).
  assert (Hlt : (length H0 <= n)%nat).
  { destruct (decide (length H0 <= n)%nat); [done|]. exfalso.
    assert (Hx : H !! (length H0 - 1)%nat = Some (LDo EvFlush) \/ H !! (length H0 - 1)%nat = Some LCrash).
    { destruct He as [-> | (H' & [-> | ->])]; [cbn in *; lia| |]; rewrite HH, app_length; cbn [length];
        replace (length H' + 1 - 1)%nat with (length H') by lia;
        rewrite <- app_assoc, lookup_app_r, Nat.sub_diag by lia; cbn; auto. }
    assert (n <> length H0 - 1)%nat by (intros ->; destruct Hx; congruence).
    destruct (Hr (length H0 - 1)%nat ltac:(lia)) as (? & ? & _). tauto. }
  rewrite HH in Hn. apply pending_lookup in Hn; [|done].
  assert (Hm : mentioned u (unflushed h) = true) by (apply mentioned_lookup; eauto).
  rewrite Hm. destruct (last_add (unflushed h) u i) as [o|] eqn:El.
  - destruct (last_add_some _ _ _ _ El) as (k & Hk & Hkl).
    destruct (decide (k = n - length H0)%nat) as [-> |]; [congruence|].
    destruct (decide (k < n - length H0)%nat) as [Hx |]; [by destruct (Hkl _ op Hx)|].
    destruct (Hr (length H0 + k)%nat ltac:(lia)) as (_ & _ & Hy). destruct (Hy o). rewrite HH.
    apply pending_lookup; [lia|]. by replace (length H0 + k - length H0)%nat with k by lia.
  - by eapply last_add_none in Hn.
Qed.
Print Assumptions C82_pending_visible.

(** Extending a concrete life by a call / by the death of the process. *)
Ltac call_in L c :=
  match type of L with
  | life ?b ?k ?H ?s =>
    let r := eval vm_compute in (d_call b c s) in
    match r with
    | (?s', _) => let L' := fresh in
      assert (L' : life b k (H ++ [LDo (event_of c)]) s') by (refine (life_call b k H s c s' L _ _); [done|by vm_compute]);
      cbn [app event_of] in L'; clear L; rename L' into L
    end
  end.
Ltac die_in L c j :=
  match type of L with
  | life ?b ?k ?H ?s =>
    let d := eval vm_compute in (crash_image (ds_file s) (ds_file (fst (d_call b c s))) j) in
    let r := eval vm_compute in (d_open_maybe_recover k (open_file KOs d)) in
    match r with
    | (?f', Ret ?t) => let L' := fresh in
      assert (L' : life b k (H ++ [LCrash]) t)
        by (refine (life_crash_call b k H s c (fst (d_call b c s)) j (open_file KOs d) f' t L _ _ _ _ _);
            [by vm_compute|split; [done|split; [done|by left]]|done|by vm_compute|by vm_compute]);
      cbn [app] in L'; clear L; rename L' into L
    end
  end.

(** A file that lived through two crashes: the first in the middle of a flush, which kept
    one of two operations, the second with an operation pending. *)
Example C82_case :
  let sh : new_order := Shuffle _ (fun l => l) (fun l => reflexivity l) in
  let H := [LDo (EvAdd 43 1 10); LDo EvFlush; LDo (EvAdd 45 1 10); LDo (EvAdd 43 2 20); LCrash;
            LDo (EvAdd 43 3 30); LCrash; LDo (EvAdd 43 4 40); LDo EvFlush] in
  exists s, life 16 8 H s /\ settled H 0 /\ ~ settled H 2 /\ ~ settled H 5 /\ settled H 7 /\
    (forall user, nothing_pending H user) /\
    d_get s 1 10 = Some 45 /\ d_get s 2 20 = None /\ d_get s 3 30 = None /\ d_get s 4 40 = Some 43.
Proof.
  intros sh H.
  let r := eval vm_compute in (d_open (open_file KOs [])) in
  match r with
  | (?f', Ret ?s0) =>
    assert (L : life 16 8 [] s0) by (refine (life_new 16 8 (open_file KOs []) f' s0 _ _ _);
      [split; [done|split; [done|by left]]|done|by vm_compute])
  end.
  call_in L (DAdd 43 1 10). call_in L (DFlush sh). call_in L (DAdd 45 1 10). call_in L (DAdd 43 2 20).
  die_in L (DFlush sh) 30%nat. call_in L (DAdd 43 3 30). die_in L (DFlush sh) 3%nat.
  call_in L (DAdd 43 4 40). call_in L (DFlush sh).
  eexists. split; [exact L|].
  split; [exists 1%nat; split; [lia|]; split; [done|]; intros k Hk; lia|].
  split.
  { intros (m & Hm & Hf & Hk). do 9 (destruct m as [|m]; try done; try lia). by apply (Hk 4%nat); [lia|]. }
  split.
  { intros (m & Hm & Hf & Hk). do 9 (destruct m as [|m]; try done; try lia). by apply (Hk 6%nat); [lia|]. }
  split; [exists 8%nat; split; [lia|]; split; [done|]; intros k Hk; lia|].
  split; [|by vm_compute].
  intros user n op item Hn. exists 8%nat. split; [|by left].
  assert (n < 9)%nat by (apply lookup_lt_Some in Hn; done). assert (n <> 8)%nat; [|lia]. by intros ->.
Qed.
