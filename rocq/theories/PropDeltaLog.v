(** Property C123: the delta file as a log of the operations
    (internal/infra/delta/storage.go). *)
From Verif Require Import Base GoIO Delta SpecFile SpecLock SpecDelta DeltaSession GoIOFacts CodecFacts DeltaFacts
  DeltaStoreFacts DeltaHistFacts DeltaCrashFacts.

(** * C123

    An open storage whose file holds the operations [ops]. *)
Definition holds (s : dstore) (ops : list (Z * Z * Z)) : Prop :=
  f_data (ds_file s) = delta_image 1 (map op_bytes ops).

(** The operations (op, user, item) of a user, of a pair, and those of a history. *)
Definition user_ops (user : Z) (ops : list (Z * Z * Z)) : list (Z * Z * Z) :=
  List.filter (fun '(_, u, _) => u =? user) ops.
Definition pair_ops (user item : Z) (ops : list (Z * Z * Z)) : list Z :=
  map (fun '(op, _, _) => op) (List.filter (fun '(_, u, i) => (u =? user) && (i =? item)) ops).
Fixpoint made (h : list devent) : list (Z * Z * Z) :=
  match h with
  | [] => []
  | EvAdd op user item :: h => (op, user, item) :: made h
  | EvFlush :: h => made h
  end.

(** The claim for one Flush: it appends the operations made since the last one, those of
    each user in their order.  An operation on the same pair replaces the earlier one. *)
Definition log_start : dstore :=
  match d_open (open_file KOs []) with (_, Ret s) => s | (f, _) => DStore ∅ ∅ 0 0 f end.
Definition log_store : dstore := d_add 2 5 7 (d_add 1 5 8 (d_add 1 5 7 log_start)).
Definition log_order : new_order := Shuffle _ (fun l => l) (fun l => reflexivity l).
Definition log_events : list devent := [EvAdd 1 5 7; EvAdd 1 5 8; EvAdd 2 5 7].

Lemma log_session : session 16 log_events log_store.
Proof.
  assert (S0 : session 16 [] log_start).
  { apply (session_new _ (open_file KOs []) (fst (d_open (open_file KOs [])))); [split; [done|split; [done|by left]]|done|].
    by vm_compute. }
  assert (S1 : session 16 ([] ++ [event_of (DAdd 1 5 7)]) (d_add 1 5 7 log_start)) by (apply (session_call _ _ log_start); done).
  assert (S2 : session 16 (([] ++ [event_of (DAdd 1 5 7)]) ++ [event_of (DAdd 1 5 8)]) (d_add 1 5 8 (d_add 1 5 7 log_start)))
    by (by apply (session_call _ _ (d_add 1 5 7 log_start))).
  by apply (session_call 16 [EvAdd 1 5 7; EvAdd 1 5 8] (d_add 1 5 8 (d_add 1 5 7 log_start)) (DAdd 2 5 7) log_store).
Qed.

Theorem C123_every_operation_refuted :
  ~ (forall bsz sh h s s', session bsz h s -> Z.of_nat (length h) < 2 ^ 32 -> d_flush bsz sh s = (s', Ret tt) ->
     exists old added, holds s old /\ holds s' (old ++ added) /\
       forall user, user_ops user added = user_ops user (made (unflushed h))).
Proof.
  intros H. destruct (d_flush 16 log_order log_store) as [s' o] eqn:E.
  assert (o = Ret tt) as -> by (by apply (f_equal snd) in E; vm_compute in E; subst o).
  destruct (H 16%nat log_order log_events log_store s' log_session eq_refl E) as (old & added & _ & Hs' & Hu).
  specialize (Hu 5). change (user_ops 5 (made (unflushed log_events))) with [(1, 5, 7); (1, 5, 8); (2, 5, 7)] in Hu.
  assert (Hlen : length (f_data (ds_file s')) = 50%nat) by (apply (f_equal fst) in E; cbn [fst] in E; rewrite <- E; by vm_compute).
  rewrite Hs', op_ent_rec in Hlen. change (delta_image 1 (map rec_of ?E)) with (img 1 E) in Hlen.
  rewrite img_length, map_length, app_length in Hlen.
  assert (3 <= length added)%nat; [|lia].
  transitivity (length (user_ops 5 added)); [by rewrite Hu|]. clear. unfold user_ops.
  induction added as [|[[op u] i] l IH]; [done|]. cbn. destruct (u =? 5); cbn; lia.
Qed.
Print Assumptions C123_every_operation_refuted.

(** The true part for one Flush: what was there stays, and for each pair on which something
    was done since the last Flush the last operation is appended, once. *)
Lemma pair_ops_app u i a b : pair_ops u i (a ++ b) = pair_ops u i a ++ pair_ops u i b.
Proof. unfold pair_ops. by rewrite List.filter_app, map_app. Qed.

Lemma pair_ops_user u i E : pair_ops u i (map ent_op E) =
  map id_op (List.filter (fun d => id_item d =? i) (of_user u E)).
Proof.
  induction E as [|[v d] E IH]; [done|]. rewrite of_user_cons. cbn [map fst snd]. unfold pair_ops, ent_op in *.
  cbn [List.filter fst snd]. rewrite List.filter_app, map_app, <- IH.
  destruct (decide (v = u)) as [-> | Hne].
  - rewrite Z.eqb_refl. cbn [andb List.filter]. by destruct (id_item d =? i).
  - by rewrite (proj2 (Z.eqb_neq v u)).
Qed.

Lemma nodup_one l i : NoDup (map id_item l) ->
  map id_op (List.filter (fun d => id_item d =? i) l) = match flast l i with Some op => [op] | None => [] end.
Proof.
  induction l as [|d l IH]; [done|]. cbn [map]. intros Hn. apply NoDup_cons in Hn as [Hd Hn].
  change (d :: l) with ([d] ++ l). rewrite flast_app, flast_one. cbn [app List.filter].
  destruct (id_item d =? i) eqn:E.
  - apply Z.eqb_eq in E. subst i. cbn [map]. rewrite (IH Hn). by rewrite (proj2 (flast_none _ _) Hd).
  - rewrite (IH Hn). by destruct (flast l i).
Qed.

Lemma holds_img s E : f_data (ds_file s) = img 1 E -> holds s (map ent_op E).
Proof. intros H. unfold holds. by rewrite ent_op_bytes. Qed.

Lemma visit_pairs h E s sh u i : dinv h E s ->
  pair_ops u i (map ent_op (visit sh (ds_new s))) = match last_add (unflushed h) u i with Some op => [op] | None => [] end.
Proof.
  intros I. rewrite pair_ops_user, of_user_visit, <- (di_unf _ _ _ I). apply nodup_one.
  destruct (ds_new s !! u) as [l|] eqn:El; [|constructor]. by apply (di_new _ _ _ I u l).
Qed.

Theorem C123_flush_appends_partial :
  forall bsz sh h s s', session bsz h s -> Z.of_nat (length h) < 2 ^ 32 -> d_flush bsz sh s = (s', Ret tt) ->
  exists old added, holds s old /\ holds s' (old ++ added) /\
    forall user item, pair_ops user item added =
      match last_add (unflushed h) user item with Some op => [op] | None => [] end.
Proof.
  intros bsz sh h s s' Hs Hl E. destruct (session_inv bsz h s Hs Hl) as [En I].
  destruct (flush_inv bsz sh h En s I Hl) as (s1 & E1 & I1 & _). rewrite E in E1. injection E1 as <-.
  exists (map ent_op En), (map ent_op (visit sh (ds_new s))). split; [apply holds_img, I|].
  split; [rewrite <- map_app; apply holds_img, I1|]. intros u i. by apply (visit_pairs h En).
Qed.
Print Assumptions C123_flush_appends_partial.

(** A Flush without operations since the last one leaves the file as it is. *)
Theorem C123_idle_flush :
  forall bsz sh h s s', session bsz h s -> Z.of_nat (length h) < 2 ^ 32 -> made (unflushed h) = [] ->
  d_flush bsz sh s = (s', Ret tt) -> f_data (ds_file s') = f_data (ds_file s).
Proof.
  intros bsz sh h s s' Hs Hl Hm E. destruct (C123_flush_appends_partial bsz sh h s s' Hs Hl E) as (old & added & H1 & H2 & Hp).
  assert (added = []) as ->.
  { destruct added as [|[[op u] i] l]; [done|]. exfalso. specialize (Hp u i).
    assert (Hn : last_add (unflushed h) u i = None).
    { revert Hm. generalize (unflushed h). induction l0 as [|[|] l0 IH]; [done|done|]. cbn. exact IH. }
    rewrite Hn in Hp. unfold pair_ops in Hp. cbn [List.filter] in Hp. by rewrite !Z.eqb_refl in Hp. }
  rewrite app_nil_r in H2. by rewrite H1, H2.
Qed.
Print Assumptions C123_idle_flush.

(** Whatever is called, and also when the storage is closed, the operations the file held
    stay where they are. *)
Lemma calls_append bsz cs : forall h E s s', dinv h E s -> Z.of_nat (length h + length cs) < 2 ^ 32 ->
  Forall (fun c => ev_typed (event_of c)) cs -> d_calls bsz cs s = (s', Ret tt) ->
  exists F h', dinv h' (E ++ F) s' /\ (length h' <= length h + length cs)%nat.
Proof.
  induction cs as [|c cs IH]; intros h E s s' I Hl Ht Hc.
  - injection Hc as <-. exists [], h. rewrite app_nil_r. split; [done|lia].
  - apply Forall_cons in Ht as [Hty Ht]. cbn [d_calls] in Hc. unfold iobind in Hc. cbn [length] in Hl |- *.
    destruct c as [op u i|sh]; cbn [d_call event_of] in *.
    + destruct Hty as (? & ? & ?). destruct (IH _ E _ s' (add_inv op u i h E s I ltac:(done) ltac:(done) ltac:(done))) as (F & h' & I' & Hlen);
        [rewrite app_length; cbn [length]; lia|done|done|].
      exists F, h'. split; [done|]. rewrite app_length in Hlen. cbn [length] in Hlen. lia.
    + destruct (flush_inv bsz sh h E s I) as (s1 & E1 & I1 & _); [lia|]. rewrite E1 in Hc.
      destruct (IH _ _ _ s' I1) as (F & h' & I' & Hlen); [rewrite app_length; cbn [length]; lia|done|done|].
      rewrite <- app_assoc in I'. exists (visit sh (ds_new s) ++ F), h'. split; [done|].
      rewrite app_length in Hlen. cbn [length] in Hlen. lia.
Qed.

Theorem C123_append_only :
  forall bsz h s cs s', session bsz h s -> Z.of_nat (length h + length cs) < 2 ^ 32 ->
  Forall (fun c => ev_typed (event_of c)) cs -> d_calls bsz cs s = (s', Ret tt) ->
  exists old more, holds s old /\ holds s' (old ++ more) /\
    forall sh s2, d_close bsz sh s' = (s2, Ret tt) ->
      exists last, f_data (ds_file s2) = delta_image 0 (map op_bytes (old ++ more ++ last)).
Proof.
  intros bsz h s cs s' Hs Hl Ht Hc. destruct (session_inv bsz h s Hs) as [E I]; [lia|].
  destruct (calls_append bsz cs h E s s' I Hl Ht Hc) as (F & h' & I' & Hlen).
  exists (map ent_op E), (map ent_op F). split; [apply holds_img, I|]. split; [rewrite <- map_app; apply holds_img, I'|].
  intros sh s2 E2. destruct (close_inv bsz sh h' (E ++ F) s' I') as (s3 & E3 & Hd & _); [lia|].
  rewrite E2 in E3. injection E3 as <-. exists (map ent_op (visit sh (ds_new s'))).
  by rewrite <- !map_app, ent_op_bytes, app_assoc.
Qed.
Print Assumptions C123_append_only.

(** The storage of the refutation: the first Flush writes the dislike of item 7 before the
    like of item 8, the second nothing; the like of item 7 is not recorded. *)
Example C123_case :
  let s1 := fst (d_flush 16 log_order log_store) in
  let s2 := fst (d_flush 16 log_order s1) in
  session 16 log_events log_store /\ holds log_store [] /\ holds s1 [(2, 5, 7); (1, 5, 8)] /\
  f_data (ds_file s2) = f_data (ds_file s1).
Proof. split; [exact log_session|]. by vm_compute. Qed.
