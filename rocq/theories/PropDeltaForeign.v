(** Property C132: whether a delta file that Open accepts can be continued. *)
From Verif Require Import Base GoIO Lock Delta SpecFile SpecLock SpecDelta GoIOFacts FileBufferFacts
  CodecFacts LockFacts DeltaFacts DeltaRecoverFacts DeltaStoreFacts DeltaSession DeltaHistFacts DeltaForeignFacts.

Lemma decode_op ops : Forall op_typed ops -> map decode (map op_bytes ops) = map op_ent ops.
Proof. intros H. rewrite op_ent_rec. apply map_dec_rec. by apply op_ent_typed. Qed.

Lemma fresh_get c n u f' (s := DStore c ∅ n 0 f') i E : c = group E -> d_get s u i = latest E u i.
Proof.
  intros ->. unfold s, d_get. cbn [ds_new ds_cache]. rewrite lookup_empty, group_lookup. unfold latest, flast.
  by destruct (of_user u E).
Qed.

(** * C132
    Full claim: when Open accepts a file, what is then added to the storage is found
    again after Close, and everything else is as it was.  False: Open says nothing about
    bytes behind the announced records, and Flush writes behind them.  One such byte is
    enough: what is added to the file is read one byte too early from then on. *)
Theorem C132_accepted_refuted :
  ~ (forall bsz f f' s cs sh s1 s2 g g' t, usable f -> d_open f = (f', Ret s) ->
     Forall ev_typed (map event_of cs) -> Z.of_nat (length cs) < 2 ^ 31 ->
     d_calls bsz cs s = (s1, Ret tt) -> d_close bsz sh s1 = (s2, Ret tt) ->
     usable g -> f_data g = f_data (ds_file s2) -> d_open g = (g', Ret t) ->
     forall user item, d_get t user item =
       match last_add (map event_of cs) user item with Some op => Some op | None => d_get s user item end).
Proof.
  intros H. set (sh := Shuffle _ (fun l => l) (fun l => reflexivity l) : new_order).
  set (f := open_file KOs (delta_image 0 [op_record 43 1 10] ++ [0])).
  assert (Hus : forall d, usable (open_file KOs d)) by (intros d; split; [done|]; split; [done|by left]).
  assert (E0 : exists f' s, d_open f = (f', Ret s)) by (eexists _, _; vm_compute; reflexivity).
  destruct E0 as (f' & s & E0).
  assert (Hs : ds_new s = ∅ /\ exists s2, d_close 64 sh (d_add 43 2 20 s) = (s2, Ret tt) /\
    exists g' t, d_open (open_file KOs (f_data (ds_file s2))) = (g', Ret t) /\ d_get t 2 20 = None).
  { vm_compute in E0. injection E0 as <- <-. split; [done|]. eexists _. split; [vm_compute; reflexivity|].
    eexists _, _. split; vm_compute; reflexivity. }
  destruct Hs as (_ & s2 & E2 & g' & t & E3 & Hn).
  specialize (H 64%nat f f' s [DAdd 43 2 20] sh (d_add 43 2 20 s) s2 (open_file KOs (f_data (ds_file s2))) g' t (Hus _) E0).
  assert (Ht : Forall ev_typed (map event_of [DAdd 43 2 20])) by (apply Forall_singleton; cbn [event_of ev_typed]; unfold is_byte, is_u64; lia).
  assert (Hl : Z.of_nat (length [DAdd 43 2 20]) < 2 ^ 31) by (cbn [length]; lia).
  specialize (H Ht Hl eq_refl E2 (Hus _) eq_refl E3 2 20).
  rewrite Hn in H. done.
Qed.
Print Assumptions C132_accepted_refuted.

(** With whole records behind the announced ones, more of them than calls are made,
    nothing that is added is found again: instead the records that were there and not
    announced come to life. *)
Theorem C132_unannounced_refuted :
  forall bsz f v old extra rest cs sh, usable f ->
  Forall op_typed (old ++ extra) ->
  f_data f = delta_magic ++ [v; 0] ++ be32 (Z.of_nat (length old)) ++ concat (map op_bytes (old ++ extra)) ++ rest ->
  Forall ev_typed (map event_of cs) -> (length cs < length extra)%nat ->
  Z.of_nat (length old) + Z.of_nat (length cs) + 1 < 2 ^ 32 ->
  exists f' s s1 s2, d_open f = (f', Ret s) /\ d_calls bsz cs s = (s1, Ret tt) /\ d_close bsz sh s1 = (s2, Ret tt) /\
    (forall user item, d_get s user item = last_add (map op_event old) user item) /\
    forall g, usable g -> f_data g = f_data (ds_file s2) ->
    exists g' t k, d_open g = (g', Ret t) /\
      forall user item, d_get t user item = last_add (map op_event (old ++ take k extra)) user item.
Proof.
  intros bsz f v old extra rest cs sh Hu Ht Hd Hc Hlt Hb. apply Forall_app in Ht as [To Te].
  rewrite map_app, concat_app, <- app_assoc in Hd.
  assert (Hlen : forall l, Forall op_typed l -> Forall (fun r => length r = 18%nat) (map op_bytes l)).
  { intros l _. rewrite op_ent_rec. apply recs_len. }
  destruct (foreign_open f v (map op_bytes old) (concat (map op_bytes extra) ++ rest) Hu) as (f' & s & t0 & ops & Ho & F & Hol & Hg).
  { rewrite Hd, map_length. done. }
  { rewrite map_length. lia. }
  { by apply Hlen. }
  { rewrite op_ent_rec. apply recs_bytes, op_ent_typed, To. }
  rewrite map_length in Hol. rewrite decode_op in F by done.
  destruct (foreign_calls bsz _ _ cs _ _ _ _ F Hc) as (s1 & t1 & N1 & E1 & F1).
  destruct (foreign_close bsz sh _ _ _ _ _ _ F1) as (s2 & N' & E2 & _ & D2 & _ & B2 & _).
  rewrite !app_length, !map_length, Hol in B2. rewrite map_length in D2. cbn [length] in B2.
  exists f', s, s1, s2. split; [done|]. split; [done|]. split; [done|]. split.
  { intros u i. destruct (open_beginning f v (map op_bytes old) (concat (map op_bytes extra) ++ rest) Hu)
      as (f2 & p & _ & _ & _ & _ & _ & Ho2); [by rewrite Hd, map_length|rewrite map_length; lia|by apply Hlen|].
    rewrite Ho in Ho2. injection Ho2 as _ ->. rewrite decode_op by done. rewrite (fresh_get _ _ _ _ _ (map op_ent old)) by done.
    apply latest_ops. }
  intros g Hug Hdg. set (k := length N').
  assert (Hk : length (take k extra) = k) by (rewrite take_length; unfold k; lia).
  destruct (open_beginning g 1 (map op_bytes (old ++ take k extra)) (concat (map op_bytes (drop k extra)) ++ rest ++ recs N') Hug)
    as (g' & p & _ & _ & _ & _ & _ & Hog).
  { rewrite Hdg, D2, map_length, app_length, Hk. do 4 f_equal. rewrite <- (take_drop k extra) at 1.
    rewrite !map_app, !concat_app, <- !app_assoc. done. }
  { rewrite map_length, app_length, Hk. unfold k. lia. }
  { apply Hlen, Forall_app. split; [done|]. by apply Forall_take. }
  eexists g', _, k. split; [exact Hog|]. intros u i.
  rewrite (fresh_get _ _ _ _ _ (map op_ent (old ++ take k extra))); [apply latest_ops|].
  rewrite decode_op; [done|]. apply Forall_app. split; [done|]. by apply Forall_take.
Qed.
Print Assumptions C132_unannounced_refuted.

(** What is true: a file that ends with the last announced record can be continued,
    whatever its version byte and whatever its checksums. *)
Theorem C132_accepted_partial :
  forall bsz f v records cs sh, usable f ->
  Forall (fun r => length r = 18%nat /\ Forall is_byte r) records ->
  f_data f = delta_magic ++ [v; 0] ++ be32 (Z.of_nat (length records)) ++ concat records ->
  Forall ev_typed (map event_of cs) -> Z.of_nat (length records) + Z.of_nat (length cs) + 1 < 2 ^ 32 ->
  exists f' s s1 s2, d_open f = (f', Ret s) /\ d_calls bsz cs s = (s1, Ret tt) /\ d_close bsz sh s1 = (s2, Ret tt) /\
    f_closed (ds_file s2) = true /\
    forall g, usable g -> f_data g = f_data (ds_file s2) ->
    exists g' t, d_open g = (g', Ret t) /\
      forall user item, d_get t user item =
        match last_add (map event_of cs) user item with Some op => Some op | None => d_get s user item end.
Proof.
  intros bsz f v rs cs sh Hu Hr Hd Hc Hb.
  assert (H18 : Forall (fun r => length r = 18%nat) rs) by (eapply Forall_impl; [exact Hr|]; by intros r []).
  assert (Hby : Forall (Forall is_byte) rs) by (eapply Forall_impl; [exact Hr|]; by intros r []).
  destruct (foreign_open f v rs [] Hu) as (f' & s & t0 & ops & Ho & F & Hol & Hg); [|lia|done|done|].
  { rewrite Hd, app_nil_r. done. }
  destruct (foreign_calls bsz _ _ cs _ _ _ _ F Hc) as (s1 & t1 & N1 & E1 & F1).
  destruct (foreign_close bsz sh _ _ _ _ _ _ F1) as (s2 & N' & E2 & C2 & D2 & T2 & B2 & L2).
  rewrite !app_length, !map_length, Hol in B2. rewrite map_length in D2. cbn [length] in B2.
  exists f', s, s1, s2. do 4 (split; [done|]). intros g Hug Hdg.
  destruct (open_beginning g 1 (rs ++ map rec_of N') [] Hug) as (g' & p & _ & _ & _ & _ & _ & Hog).
  { rewrite Hdg, D2, app_length, map_length, concat_app, !app_nil_r. done. }
  { rewrite app_length, map_length. lia. }
  { apply Forall_app. split; [done|apply recs_len]. }
  eexists g', _. split; [exact Hog|]. intros u i.
  rewrite (fresh_get _ _ _ _ _ (map decode rs ++ N')).
  - rewrite L2, !last_add_app. cbn [last_add]. rewrite Hg. by destruct (last_add (map event_of cs) u i).
  - rewrite map_app. f_equal. f_equal. apply Forall_app in T2 as [_ T2]. by apply map_dec_rec.
Qed.
Print Assumptions C132_accepted_partial.

(** A record with a checksum that is not its own, version 7: the file is continued.  And
    three records of which one is announced: what is added is lost, the second record
    turns up. *)
Example C132_case :
  let sh := Shuffle _ (fun l => l) (fun l => reflexivity l) : new_order in
  let reopened data := match d_open (open_file KOs data) with
    | (_, Ret s) => match d_open (open_file KOs (f_data (ds_file (fst (d_close 64 sh (d_add 45 2 20 s)))))) with
                    | (_, Ret t) => Some (d_get t 1 10, d_get t 2 20, d_get t 3 30)
                    | _ => None
                    end
    | _ => None
    end in
  let r1 := [43] ++ be64 1 ++ be64 10 ++ [99] in
  (length r1 = 18%nat /\ Forall is_byte r1) /\
  reopened (delta_magic ++ [7; 0] ++ be32 1 ++ r1) = Some (Some 43, Some 45, None) /\
  reopened (delta_magic ++ [1; 0] ++ be32 1 ++ concat [op_record 43 1 10; op_record 43 3 30; op_record 43 3 30])
    = Some (Some 43, None, Some 43).
Proof.
  intros sh reopened r1. split; [split; [done|]; repeat constructor; done|].
  split; vm_compute; reflexivity.
Qed.
