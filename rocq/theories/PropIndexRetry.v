(** Property C125: repeating a Close of the index that failed
    (internal/infra/index/storage.go:84-156). *)
From Verif Require Import Base GoIO Lock Index SpecFile SpecLock SpecCrash SpecIndex IndexSession GoIOFacts
  CodecFacts LockFacts FileBufferFacts DeltaStoreFacts IndexFacts PropIO PropIndex FaultyFacts IndexFaultFacts
  PropIndexFault.

(** * C125

    An index on which Close may already have been called any number of times, each time
    with calls on the file failing as some [env] says; [o] is what Close reported. *)
Inductive closed_session (bsz rsz : nat) (c : bool) : list ievent -> istore -> Prop :=
| closed_start h s : isession bsz rsz c h s -> closed_session bsz rsz c h s
| closed_call h s e :
    closed_session bsz rsz c h s -> iv_typed e -> closed_session bsz rsz c (h ++ [e]) (i_call e s)
| closed_close h s env sh s' o :
    closed_session bsz rsz c h s -> i_close bsz sh (i_faults env s) = (s', o) ->
    closed_session bsz rsz c h s'.

(** What is kept: the pairs in memory; the file is closed, which needs a closer, or
    begins with the magic. *)
Record kept (c : bool) (h : list ievent) (s : istore) : Prop := {
  k_map : forall id, is_map s !! id = index_value h id None;
  k_typed : map_typed (is_map s);
  k_size : (size (is_map s) <= length h)%nat;
  k_closer : is_closer s = c;
  k_file : (f_closed (is_file s) = true /\ c = true) \/ (f_closed (is_file s) = false /\ has_magic (is_file s))
}.

Lemma call_file e s : is_file (i_call e s) = is_file s /\ is_closer (i_call e s) = is_closer s.
Proof. destruct e as [k v|k]; [done|]. cbn. unfold i_remove. by destruct (is_map s !! k). Qed.

Lemma kept_session bsz rsz c h s : (0 < rsz)%nat -> closed_session bsz rsz c h s ->
  Z.of_nat (length h) < 2 ^ 32 -> kept c h s.
Proof.
  intros Hrsz. induction 1 as [h s Hs | h s e Hs IH Ht | h s env sh s' o Hs IH Hcl]; intros Hl.
  - destruct (session_inv bsz rsz c h s Hrsz Hs Hl) as [I Hc]. constructor; try apply I; [done|].
    right. split; [apply I|]. destruct (ii_data _ _ I) as (cnt & rest & Hn & Hd).
    eexists. split; [|exact Hd]. cbn. rewrite app_length. lia.
  - rewrite app_length in Hl. cbn in Hl. destruct IH as [K1 K2 K3 K4 K5]; [lia|].
    (* the map part of the invariant of a session does not depend on the file *)
    set (x := IStore (is_map s) (File KOs (index_magic ++ 1 :: 1 :: [0;0;0;0] ++ []) 0 false [] []) c).
    assert (I : iinv h x).
    { constructor; try done; cbn [x is_file is_map].
      - by left.
      - exists [0;0;0;0], []. done. }
    pose proof (call_inv h x e I Ht) as I'. destruct (call_file e s) as [Hf Hc].
    assert (Em : is_map (i_call e x) = is_map (i_call e s)).
    { destruct e as [k v|k]; [done|]. cbn [i_call]. unfold i_remove. cbn [x is_map]. by destruct (is_map s !! k). }
    constructor; rewrite ?Hf, ?Hc; try done; rewrite <- Em; apply I'.
  - destruct IH as [K1 K2 K3 K4 K5]; [done|].
    assert (E : s' = fst (i_close bsz sh (i_faults env s))) by (by rewrite Hcl). subst s'.
    destruct K5 as [[Hc Hx] | [Hc Hm]].
    + destruct (i_close_closed bsz sh (i_faults env s) Hc) as (_ & H1 & _ & H3 & H4). cbn zeta in *.
      constructor; rewrite ?H3, ?H4; try done. by left.
    + destruct c.
      * assert (Hk : is_closer (i_faults env s) = true) by exact K4.
        destruct (i_close_closes bsz sh (i_faults env s) Hk) as (H1 & _).
        pose proof (i_close_map bsz sh (i_faults env s)) as [H3 H4].
        constructor; rewrite ?H3, ?H4; try done. by left.
      * assert (Hk : is_closer (i_faults env s) = false) by exact K4.
        destruct (i_close_keeps bsz sh (i_faults env s) Hc Hm Hk) as (H1 & H2 & H3 & H4). cbn zeta in *.
        constructor; rewrite ?H3, ?H4; try done. by right.
Qed.

(** Full claim: Close called again, when nothing fails, reports success.  False with a
    closer, which the first Close has called although it failed. *)
Theorem C125_repeated_close_refuted :
  ~ (forall bsz rsz c h s env sh s1 e sh', (0 < rsz)%nat -> isession bsz rsz c h s -> Z.of_nat (length h) < 2 ^ 32 ->
     i_close bsz sh (i_faults env s) = (s1, Err e) ->
     snd (i_close bsz sh' (i_faults [] s1)) = Ret tt).
Proof.
  intros H. destruct C119_case as [Hs _].
  specialize (H 16%nat 16%nat true _ case_index [FErr 0] case_order
    (fst (i_close 16 case_order (i_faults [FErr 0] case_index))) (EMsg "failed flush buffer") case_order ltac:(lia) Hs).
  cbv beta in H. assert (Hl : Z.of_nat (length [IvPut 5 50; IvPut 7 70]) < 2 ^ 32) by done.
  specialize (H Hl). assert (Hx : i_close 16 case_order (i_faults [FErr 0] case_index) =
    (fst (i_close 16 case_order (i_faults [FErr 0] case_index)), Err (EMsg "failed flush buffer"))) by (vm_compute; reflexivity).
  specialize (H Hx). vm_compute in H. discriminate H.
Qed.
Print Assumptions C125_repeated_close_refuted.

(** With a closer, after the first Close (whatever it reported) every Close reports an
    error and changes nothing in the file, whatever is called in between. *)
Theorem C125_closer_partial :
  forall bsz rsz h s env sh s1 o h' env' sh', (0 < rsz)%nat ->
  closed_session bsz rsz true h s -> Z.of_nat (length h) < 2 ^ 32 ->
  i_close bsz sh (i_faults env s) = (s1, o) ->
  let '(s2, o2) := i_close bsz sh' (i_faults env' (i_calls h' s1)) in
  (exists e, o2 = Err e) /\ f_data (is_file s2) = f_data (is_file s1).
Proof.
  intros bsz rsz h s env sh s1 o h' env' sh' Hrsz Hs Hl Hcl.
  pose proof (kept_session bsz rsz true h s Hrsz Hs Hl) as [K1 K2 K3 K4 K5].
  assert (Hk : is_closer (i_faults env s) = true) by exact K4.
  destruct (i_close_closes bsz sh (i_faults env s) Hk) as (H1 & _). rewrite Hcl in H1. cbn [fst] in H1.
  assert (Hf : forall h s, is_file (i_calls h s) = is_file s).
  { clear. induction h as [|e h IH]; intros s; [done|]. change (i_calls (e :: h) s) with (i_calls h (i_call e s)).
    rewrite IH. apply call_file. }
  assert (Hc : f_closed (is_file (i_faults env' (i_calls h' s1))) = true).
  { cbn. by rewrite Hf. }
  destruct (i_close_closed bsz sh' _ Hc) as ([e He] & _ & Hd & _). cbn zeta in *.
  destruct (i_close bsz sh' _) as [s2 o2]. cbn [fst snd] in *. split; [by exists e|].
  rewrite Hd. cbn. by rewrite Hf.
Qed.
Print Assumptions C125_closer_partial.

(** Without a closer the claim holds: after any number of Closes that failed or not, a
    Close on whose file calls nothing fails reports success and saves everything. *)
Theorem C125_no_closer_partial :
  forall bsz rsz h s sh f, (0 < rsz)%nat -> closed_session bsz rsz false h s -> Z.of_nat (length h) < 2 ^ 32 ->
  let '(s', o) := i_close bsz sh (i_faults [] s) in
  o = Ret tt /\
  (usable f -> f_data f = f_data (is_file s') ->
   exists f' t, i_open bsz rsz false f = (f', Ret t) /\ forall id, i_get t id = index_value h id None).
Proof.
  intros bsz rsz h s sh f Hrsz Hs Hl.
  pose proof (kept_session bsz rsz false h s Hrsz Hs Hl) as [K1 K2 K3 K4 [[_ K5]|[Hc Hm]]]; [done|].
  set (x := i_faults [] s).
  assert (Hh : healthy (is_file x)) by done.
  rewrite (i_close_ok bsz sh x Hh) by (by apply magic_seek; [|lia]).
  split; [done|]. intros Hu Hd. cbn [is_file] in Hd. rewrite close_if_any in Hd.
  destruct (saved_over bsz rsz false _ (is_map s) sh (is_file x) f Hrsz Hm K2 eq_refl ltac:(lia) Hu Hd)
    as (f' & t & Ho & Ht).
  exists f', t. split; [done|]. intros id. unfold i_get. by rewrite Ht.
Qed.
Print Assumptions C125_no_closer_partial.

(** And with or without a closer no Close, however many went before, reports a success
    that is not one. *)
Theorem C125_success_is_saved :
  forall bsz rsz c h s env sh s' f, (0 < rsz)%nat -> closed_session bsz rsz c h s -> Z.of_nat (length h) < 2 ^ 32 ->
  i_close bsz sh (i_faults env s) = (s', Ret tt) ->
  usable f -> f_data f = f_data (is_file s') ->
  exists f' t, i_open bsz rsz c f = (f', Ret t) /\ forall id, i_get t id = index_value h id None.
Proof.
  intros bsz rsz c h s env sh s' f Hrsz Hs Hl Hcl Hu Hd.
  pose proof (kept_session bsz rsz c h s Hrsz Hs Hl) as [K1 K2 K3 K4 [[Hc _]|[Hc Hm]]].
  - destruct (i_close_closed bsz sh (i_faults env s) Hc) as ([e He] & _). rewrite Hcl in He. discriminate He.
  - destruct (i_close_faulty bsz sh (i_faults env s) Hc) as (s1 & [[E Hd1] | (e & j & E & _)]).
    + by apply magic_seek; [|lia].
    + rewrite E in Hcl. injection Hcl as <-. rewrite Hd1 in Hd.
      destruct (saved_over bsz rsz c _ (is_map s) sh _ f Hrsz (Hm : has_magic (quiet (is_file (i_faults env s)))) K2 eq_refl ltac:(lia) Hu Hd)
        as (f' & t & Ho & Ht).
      exists f', t. split; [done|]. intros id. unfold i_get. by rewrite Ht.
    + rewrite E in Hcl. discriminate Hcl.
Qed.
Print Assumptions C125_success_is_saved.

(** Cases: an index with 5 and 7, opened without a closer; Close fails in the pairs, 9 is
    put, Close fails in the header, Close succeeds.  With a closer the second Close fails. *)
Definition retry_index (c : bool) : istore :=
  match i_open 16 16 c (open_file KOs []) with
  | (_, Ret s) => i_calls [IvPut 5 50; IvPut 7 70] s
  | (f, _) => IStore ∅ f c
  end.
Definition retry_close (env : list fault) (s : istore) : istore := fst (i_close 16 case_order (i_faults env s)).
Definition retried (c : bool) : istore :=
  retry_close [FErr 3] (i_put 9 90 (retry_close [FOk; FErr 20] (retry_index c))).

Example C125_case (c : bool) :
  closed_session 16 16 c [IvPut 5 50; IvPut 7 70; IvPut 9 90] (retried c) /\
  (exists e, snd (i_close 16 case_order (i_faults [FOk; FErr 20] (retry_index c))) = Err e) /\
  (snd (i_close 16 case_order (i_faults [] (retried c))) = Ret tt <-> c = false).
Proof.
  assert (Hi : isession 16 16 c [IvPut 5 50; IvPut 7 70] (retry_index c)).
  { destruct c;
    (match goal with |- isession _ _ ?c _ _ =>
      change (retry_index c) with (i_call (IvPut 7 70) (i_call (IvPut 5 50)
        (match i_open 16 16 c (open_file KOs []) with (_, Ret s) => s | (f, _) => IStore ∅ f c end))) end;
     apply (isession_call _ _ _ [IvPut 5 50]); [|done]; apply (isession_call _ _ _ []); [|done];
     eapply (isession_new _ _ _ (open_file KOs [])); [split; [done|split; [done|by left]]|done|];
     vm_compute; reflexivity). }
  split.
  - unfold retried, retry_close. eapply (closed_close _ _ _ _ _ [FErr 3] case_order).
    2:{ apply surjective_pairing. }
    apply (closed_call _ _ _ [IvPut 5 50; IvPut 7 70] _ (IvPut 9 90)); [|done].
    eapply (closed_close _ _ _ _ _ [FOk; FErr 20] case_order).
    2:{ apply surjective_pairing. }
    by apply closed_start.
  - destruct c; (split; [eexists; vm_compute; reflexivity|]); vm_compute; split; done.
Qed.
