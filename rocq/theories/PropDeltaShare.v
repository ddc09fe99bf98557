(** Property C91: a delta file has one user at a time. *)
From Verif Require Import Base GoIO SpecLock SpecDelta Delta DeltaSession DeltaShare DeltaHistFacts DeltaShareFacts.

(** * C91
    Full claim: while a storage is open on a delta file, no other storage can be
    opened on it, so that what either of them flushed is found later.
    False: the lock flag means both "in use" and "not closed properly".
    OpenMaybeRecover, the call that namespaces use, takes the file of an open storage
    for a corrupted one and opens it.  Then the two write their own counts into the
    header.  Whatever the storage [s] has been used for before, with [s] flushing one
    operation and the second storage [t] closing upon another, every call succeeds and
    the operation of [t] is not found when the file is opened again. *)
Theorem C91_one_user_refuted :
  forall bsz csz h s sh sh' opa ua ia opb ub ib (g : file),
  session bsz h s -> unflushed h = [] -> Z.of_nat (length h) + 2 < 2 ^ 32 -> (0 < csz)%nat ->
  ev_typed (EvAdd opa ua ia) -> ev_typed (EvAdd opb ub ib) ->
  usable g -> f_pos g = 0%nat -> f_data g = f_data (ds_file s) ->
  exists g' t s1 t1,
    d_open_maybe_recover csz g = (g', Ret t) /\
    d_flush bsz sh (d_add opa ua ia (sees (f_data g') s)) = (s1, Ret tt) /\
    d_close bsz sh' (d_add opb ub ib (sees (f_data (ds_file s1)) t)) = (t1, Ret tt) /\
    forall k, usable k -> f_data k = f_data (ds_file t1) -> exists k' r, d_open k = (k', Ret r) /\
      forall u i, d_get r u i = last_add (h ++ [EvAdd opa ua ia]) u i.
Proof.
  intros bsz csz h s sh sh' opa ua ia opb ub ib g Hs Hu Hl Hc (Ha1 & Ha2 & Ha3) (Hb1 & Hb2 & Hb3) Hg Hp Hd.
  destruct (session_inv bsz h s Hs) as [E I]; [lia|].
  destruct (stolen csz h E s g I) as (g' & t & h' & Ho & It & Hu' & Hf & _); try done; [lia|].
  assert (HE : Z.of_nat (length E) <= Z.of_nat (length h)).
  { pose proof (di_total _ _ _ I). pose proof (di_bound _ _ _ I). lia. }
  subst g'.
  destruct (second_is_lost bsz h E s h' t sh sh' opa ua ia opb ub ib g I It Hu Hu') as (s1 & t1 & H1 & H2 & _);
    try done; [lia|lia|].
  exists (ds_file t), t, s1, t1. split; [done|]. split; [done|]. split; [done|].
  intros k Hk Hkd.
  destruct (second_is_lost bsz h E s h' t sh sh' opa ua ia opb ub ib k I It Hu Hu') as (s2 & t2 & H3 & H4 & H5);
    try done; [lia|lia|].
  rewrite H3 in H1. injection H1 as <-. rewrite H4 in H2. injection H2 as <-. auto.
Qed.
Print Assumptions C91_one_user_refuted.

(** What is true: Open alone keeps the others away.  However it and the calls of the
    storages are interleaved (whole calls), at most one storage is open, and an Open
    while it is open fails and leaves the content as it is. *)
Theorem C91_one_user_partial :
  forall bsz n d hs, sharing bsz n d hs -> Z.of_nat n < 2 ^ 32 ->
  (length hs <= 1)%nat /\
  (hs <> [] -> forall f, usable f -> f_data f = d ->
   exists f' e, d_open f = (f', Err e) /\ f_data f' = d).
Proof.
  intros bsz n d hs H Hn. destruct (sharing_alone bsz n d hs H Hn) as [(-> & _) | (h & E & s & -> & I & -> & _)].
  - split; [cbn; lia|done].
  - split; [cbn; lia|]. intros _ f Hu Hd. rewrite <- Hd. by eapply locked_refused.
Qed.
Print Assumptions C91_one_user_partial.

Definition as_is : shuffle (Z * list item_delta) := Shuffle _ (fun l => l) (fun l => reflexivity l).

(** A new file, opened, and taken by OpenMaybeRecover: of the two flushed operations
    the one of the storage closed properly is lost. *)
Example C91_case :
  match d_open (open_file KOs []) with
  | (f0, Ret s) =>
    match d_open_maybe_recover 512 (open_file KOs (f_data f0)) with
    | (g0, Ret t) =>
      match d_flush 4096 as_is (d_add 43 1 2 (sees (f_data g0) s)) with
      | (s1, Ret _) =>
        match d_close 4096 as_is (d_add 43 3 4 (sees (f_data (ds_file s1)) t)) with
        | (t1, Ret _) =>
          match d_open (open_file KOs (f_data (ds_file t1))) with
          | (_, Ret r) => d_get r 1 2 = Some 43 /\ d_get r 3 4 = None
          | _ => False
          end
        | _ => False
        end
      | _ => False
      end
    | _ => False
    end
  | _ => False
  end.
Proof. vm_compute. done. Qed.

(** Opening, adding, closing and opening again are such interleavings. *)
Example C91_sharing_case : exists d s, sharing 4096 2 d [s] /\ d_get s 1 2 = Some 43.
Proof.
  destruct (d_open (open_file KOs [])) as [f0 o0] eqn:E0.
  assert (H0 : exists s0, o0 = Ret s0) by (vm_compute in E0; injection E0 as _ <-; eauto).
  destruct H0 as [s0 ->].
  assert (S0 : sharing 4096 0 (f_data f0) [s0]).
  { apply (sharing_open 4096 0 [] [] (open_file KOs [])); try done; [apply sharing_empty|]. by repeat split; left. }
  assert (S1 : sharing 4096 1 (f_data (ds_file (d_add 43 1 2 (sees (f_data f0) s0)))) [d_add 43 1 2 (sees (f_data f0) s0)]).
  { apply (sharing_call 4096 0 (f_data f0) [s0] 0 s0 (DAdd 43 1 2)); try done. }
  destruct (d_flush 4096 as_is (d_add 43 1 2 (sees (f_data f0) s0))) as [s1 o1] eqn:E1.
  exists (f_data (ds_file s1)), s1. split.
  - apply (sharing_call 4096 1 (f_data (ds_file (d_add 43 1 2 (sees (f_data f0) s0)))) [d_add 43 1 2 (sees (f_data f0) s0)] 0 (d_add 43 1 2 (sees (f_data f0) s0)) (DFlush as_is)); try done.
    rewrite sees_self. cbn [d_call]. rewrite E1. f_equal.
    vm_compute in E0. injection E0 as <- <-. vm_compute in E1. by injection E1 as _ <-.
  - vm_compute in E0. injection E0 as <- <-. vm_compute in E1. injection E1 as <- _. by vm_compute.
Qed.
