(** Facts about which files the storages accept. *)
From Verif Require Import Base GoIO Lock Delta Index Recdb SpecFile SpecLock SpecDelta SpecIndex SpecRecdb GoIOFacts
  CodecFacts LockFacts FileBufferFacts DeltaFacts DeltaStoreFacts IndexFacts RecdbFacts DeltaForeignFacts.

(** A file that starts with [magic] and is at least six bytes longer. *)
Lemma header_split (magic d : list byte) : take (length magic) d = magic -> (length magic + 6 <= length d)%nat ->
  exists v l c rest, d = magic ++ v :: l :: c ++ rest /\ length c = 4%nat.
Proof.
  intros Hm Hl. pose proof (drop_length d (length magic)) as Hd.
  destruct (drop (length magic) d) as [|v [|l [|c1 [|c2 [|c3 [|c4 rest]]]]]] eqn:E; cbn [length] in Hd; try lia.
  exists v, l, [c1; c2; c3; c4], rest. split; [|done]. rewrite <- (take_drop (length magic) d), Hm, E. done.
Qed.

(** Bytes cut into records of [k] bytes. *)
Lemma records_split (k n : nat) : forall bs : list byte, (k * n <= length bs)%nat ->
  exists rs tail, bs = concat rs ++ tail /\ length rs = n /\ Forall (fun r => length r = k) rs.
Proof.
  induction n as [|n IH]; intros bs H.
  - by exists [], bs.
  - destruct (IH (drop k bs)) as (rs & tail & E & Hn & Hr); [rewrite drop_length; lia|].
    exists (take k bs :: rs), tail. split; [|split; [cbn [length]; lia|]].
    + cbn [concat]. rewrite <- app_assoc, <- E. by rewrite take_drop.
    + constructor; [rewrite take_length; lia|done].
Qed.

(** What Open of the delta storage does with any file that is not empty. *)
Lemma delta_open_cases f : usable f -> f_data f <> [] -> Forall is_byte (f_data f) ->
  (exists v n tail, f_data f = delta_magic ++ [v; 0] ++ be32 n ++ tail /\ is_u32 n /\ 18 * n <= Z.of_nat (length tail) /\
    exists f' s, d_open f = (f', Ret s) /\ d_total_count s = n) \/
  (~ (exists v n tail, f_data f = delta_magic ++ [v; 0] ++ be32 n ++ tail /\ is_u32 n /\ 18 * n <= Z.of_nat (length tail)) /\
    exists f' e, d_open f = (f', Err e) /\ f_data f' = f_data f).
Proof.
  intros Hu Hne Hb.
  assert (Hrej : (take 8 (f_data f) <> delta_magic \/ (length (f_data f) < 14)%nat \/
      (exists x, f_data f !! 9%nat = Some x /\ x <> 0) \/
      (length (f_data f) < 14 + 18 * Z.to_nat (be_dec (take 4 (drop 10 (f_data f)))))%nat) ->
      exists f' e, d_open f = (f', Err e) /\ f_data f' = f_data f).
  { intros Hbad. destruct Hu as (Hc & He & Hp). destruct (d_open_nonempty f (conj Hc He) Hne) as (p & _ & Ho).
    destruct (d_load_bad (f_data f) Hbad) as (l' & e & Hload). rewrite Hload in Ho. cbn [snd] in Ho. eauto. }
  destruct (decide (take 8 (f_data f) = delta_magic)) as [Hm|Hm]; [|right; split; [|apply Hrej; by left]].
  2:{ intros (v & n & tail & E & _). apply Hm. rewrite E. done. }
  destruct (decide (14 <= length (f_data f))%nat) as [Hl|Hl]; [|right; split; [|apply Hrej; right; left; lia]].
  2:{ intros (v & n & tail & E & _). apply Hl. rewrite E, !app_length. cbn [length delta_magic]. change (length (be32 n)) with 4%nat. lia. }
  destruct (header_split delta_magic (f_data f) Hm Hl) as (v & l & c & rest & E & Hc).
  assert (Hbc : Forall is_byte c).
  { rewrite E in Hb. apply Forall_app in Hb as [_ Hb]. apply Forall_cons in Hb as [_ Hb]. apply Forall_cons in Hb as [_ Hb].
    by apply Forall_app in Hb as [Hb _]. }
  pose proof (be_dec_range c Hbc) as Hr. pose proof (be_enc_dec c Hbc) as Hed. rewrite Hc in Hr, Hed. rewrite pow256_4 in Hr.
  assert (Htc : take 4 (drop 10 (f_data f)) = c).
  { rewrite E. change (drop 10 (delta_magic ++ v :: l :: c ++ rest)) with (c ++ rest). rewrite <- Hc. apply take_app. }
  assert (Hlen : length (f_data f) = (14 + length rest)%nat).
  { rewrite E, app_length. cbn [length]. rewrite app_length, Hc. cbn. lia. }
  assert (Hinj : forall v' n tail, f_data f = delta_magic ++ [v'; 0] ++ be32 n ++ tail -> is_u32 n ->
    l = 0 /\ n = be_dec c /\ tail = rest).
  { intros v' n tail E' Hn. rewrite E in E'. apply app_inv_head in E'. change ([v'; 0] ++ be32 n ++ tail) with (v' :: 0 :: be32 n ++ tail) in E'. injection E' as _ -> E'.
    apply (app_inj_1 c (be32 n)) in E' as [-> ->]; [|exact Hc]. split; [done|]. split; [|done].
    change (be32 n) with (be_enc 4 n). rewrite be_dec_enc; [done|]. rewrite pow256_4. apply Hn. }
  destruct (decide (l = 0)) as [->|Hl0].
  2:{ right. split; [|apply Hrej; right; right; left; exists l; split; [by rewrite E|done]].
      intros (v' & n & tail & E' & Hn & _). by destruct (Hinj _ _ _ E' Hn). }
  destruct (decide (18 * Z.to_nat (be_dec c) <= length rest)%nat) as [Hfit|Hfit].
  - left. destruct (records_split 18 (Z.to_nat (be_dec c)) rest Hfit) as (rs & tail & Et & Hn & Hrs).
    exists v, (be_dec c), rest. change (be32 (be_dec c)) with (be_enc 4 (be_dec c)). rewrite Hed.
    split; [exact E|]. split; [unfold is_u32; lia|]. split; [lia|].
    assert (Hnz : Z.of_nat (length rs) = be_dec c) by lia.
    destruct (open_beginning f v rs tail Hu) as (f' & p & _ & _ & _ & _ & _ & Ho); [|lia|done|].
    { rewrite Hnz, Hed, E, Et. done. }
    eexists _, _. split; [exact Ho|]. done.
  - right. split.
    + intros (v' & n & tail & E' & Hn & Hle). destruct (Hinj _ _ _ E' Hn) as (_ & -> & ->). lia.
    + apply Hrej. right. right. right. rewrite Htc, Hlen. lia.
Qed.

Lemma index_entries_load n : forall m bs, (16 * n <= length bs)%nat ->
  exists m' bs', i_load_entries lread n m bs = (bs', Ret m').
Proof.
  induction n as [|n IH]; intros m bs H; [by exists m, bs|]. cbn [i_load_entries]. unfold iobind, iomaperr.
  destruct (iread_entry_long bs) as (e & ->); [lia|]. apply IH. rewrite drop_length. lia.
Qed.

(** The same for the index. *)
Lemma index_open_cases bsz rsz c f : (0 < rsz)%nat -> usable f -> f_data f <> [] -> Forall is_byte (f_data f) ->
  (exists v n tail, f_data f = index_magic ++ [v; 0] ++ be32 n ++ tail /\ is_u32 n /\ 16 * n <= Z.of_nat (length tail) /\
    exists f' s, i_open bsz rsz c f = (f', Ret s)) \/
  (~ (exists v n tail, f_data f = index_magic ++ [v; 0] ++ be32 n ++ tail /\ is_u32 n /\ 16 * n <= Z.of_nat (length tail)) /\
    exists f' e, i_open bsz rsz c f = (f', Err e) /\
      (f_data f' = f_data f \/ exists v rest, f_data f = index_magic ++ [v; 0] ++ rest /\ f_data f' = index_magic ++ [v; 1] ++ rest)).
Proof.
  intros Hrsz Hu Hne Hb. pose proof (usable_healthy f Hu) as Hh.
  assert (Hrej : (take 6 (f_data f) <> index_magic \/ (length (f_data f) < 12)%nat \/
      (exists x, f_data f !! 7%nat = Some x /\ x <> 0)) ->
      exists f' e, i_open bsz rsz c f = (f', Err e) /\
       (f_data f' = f_data f \/ exists v rest, f_data f = index_magic ++ [v; 0] ++ rest /\ f_data f' = index_magic ++ [v; 1] ++ rest)).
  { intros Hbad. destruct (i_open_bad bsz rsz c f Hrsz Hh Hne Hbad) as (f' & e & Ho & Hd). eauto. }
  destruct (decide (take 6 (f_data f) = index_magic)) as [Hm|Hm]; [|right; split; [|apply Hrej; by left]].
  2:{ intros (v & n & tail & E & _). apply Hm. rewrite E. done. }
  destruct (decide (12 <= length (f_data f))%nat) as [Hl|Hl]; [|right; split; [|apply Hrej; right; left; lia]].
  2:{ intros (v & n & tail & E & _). apply Hl. rewrite E, !app_length. cbn [length index_magic]. change (length (be32 n)) with 4%nat. lia. }
  destruct (header_split index_magic (f_data f) Hm Hl) as (v & l & k & rest & E & Hc).
  assert (Hbc : Forall is_byte k).
  { rewrite E in Hb. apply Forall_app in Hb as [_ Hb]. apply Forall_cons in Hb as [_ Hb]. apply Forall_cons in Hb as [_ Hb].
    by apply Forall_app in Hb as [Hb _]. }
  pose proof (be_dec_range k Hbc) as Hr. pose proof (be_enc_dec k Hbc) as Hed. rewrite Hc in Hr, Hed. rewrite pow256_4 in Hr.
  assert (Hinj : forall v' n tail, f_data f = index_magic ++ [v'; 0] ++ be32 n ++ tail -> is_u32 n ->
    l = 0 /\ n = be_dec k /\ tail = rest).
  { intros v' n tail E' Hn. rewrite E in E'. apply app_inv_head in E'. change ([v'; 0] ++ be32 n ++ tail) with (v' :: 0 :: be32 n ++ tail) in E'. injection E' as _ -> E'.
    apply (app_inj_1 k (be32 n)) in E' as [-> ->]; [|exact Hc]. split; [done|]. split; [|done].
    change (be32 n) with (be_enc 4 n). rewrite be_dec_enc; [done|]. rewrite pow256_4. apply Hn. }
  destruct (decide (l = 0)) as [->|Hl0].
  2:{ right. split; [|apply Hrej; right; right; exists l; split; [by rewrite E|done]].
      intros (v' & n & tail & E' & Hn & _). by destruct (Hinj _ _ _ E' Hn). }
  destruct (i_open_unlocked bsz rsz c f v k rest Hrsz Hh Hc E) as (p & _ & Ho).
  destruct (decide (16 * Z.to_nat (be_dec k) <= length rest)%nat) as [Hfit|Hfit].
  - left. exists v, (be_dec k), rest. change (be32 (be_dec k)) with (be_enc 4 (be_dec k)). rewrite Hed.
    split; [exact E|]. split; [unfold is_u32; lia|]. split; [lia|].
    destruct (index_entries_load _ ∅ _ Hfit) as (m & bs' & El). rewrite El in Ho. cbn [snd] in Ho. cbv zeta in Ho. eauto.
  - right. split.
    + intros (v' & n & tail & E' & Hn & Hle). destruct (Hinj _ _ _ E' Hn) as (_ & -> & ->). lia.
    + destruct (iload_entries_short (Z.to_nat (be_dec k)) ∅ rest) as (l' & e & El); [lia|].
      rewrite El in Ho. cbn [snd] in Ho. cbv zeta in Ho. destruct Ho as (e' & Ho).
      eexists _, e'. split; [exact Ho|]. right. exists v, (k ++ rest). split; [exact E|]. by rewrite close_if_data.
Qed.

(** And for the iterator of the database of profiles. *)
Lemma new_iterator_list f : usable f -> exists f', f_data f' = f_data f /\
  match snd (iobind (r_read_prefix lread) (fun _ => r_read_header lread) (f_data f)) with
  | Ret h => if rh_locked h =? 0 then exists it, r_new_iterator f = (f', Ret it) else r_new_iterator f = (f', Err ECorrupted)
  | Err _ => exists e, r_new_iterator f = (f', Err e)
  | Panic | Hang => True
  end.
Proof.
  intros Hu. pose proof (usable_healthy f Hu) as Hh. destruct (r_new_iterator f) as [g q] eqn:Eq. unfold r_new_iterator in Eq.
  unfold iobind at 1 in Eq. unfold iomaperr at 1 in Eq. change 0%Z with (Z.of_nat 0) in Eq at 1.
  rewrite usable_placed_seek in Eq by (done || lia). unfold iobind, iomaperr in Eq.
  assert (Hp : placed (fset_pos 0 f)) by (split; [by apply fset_pos_healthy|cbn; lia]).
  assert (H1 : frem (fset_pos 0 f) = f_data f) by (unfold frem; cbn [fset_pos f_pos f_data]; by rewrite drop_0).
  destruct (follows_rprefix fread _ _ _ fread_lawful_in _ Hp) as (f1 & E1 & Hp1 & Hr1 & Hf1).
  rewrite H1 in *. rewrite E1 in Eq. unfold iobind.
  assert (Hd1 : f_data f1 = f_data f) by (destruct (fframe_fields f1 f) as (Hdat & _); [rewrite Hf1; by destruct f|done]).
  destruct (r_read_prefix lread (f_data f)) as [l1 [[]|e| |]]; cbn [fst snd] in *.
  2-4: injection Eq as <- <-; exists f1; split; [done|by eauto].
  destruct (follows_rheader fread _ _ _ fread_lawful_in f1 Hp1) as (f2 & E2 & Hp2 & Hr2 & Hf2).
  rewrite Hr1 in *. rewrite E2 in Eq.
  assert (Hd2 : f_data f2 = f_data f) by (destruct (fframe_fields f2 f1) as (Hdat & _); [exact Hf2|congruence]).
  exists f2. split; [done|].
  destruct (r_read_header lread l1) as [l2 [h|e| |]]; cbn [fst snd] in *; try done.
  - destruct (rh_locked h =? 0); cbn [negb] in Eq; injection Eq as <- <-; eauto.
  - injection Eq as <- <-. eauto.
Qed.

Lemma rread_header_short l : (length l < 14)%nat -> exists e, snd (r_read_header lread l) = Err e.
Proof.
  intros. unfold r_read_header, iobind, iomaperr. change (Z.to_nat recdb_header_size) with 14%nat.
  rewrite read_full_short by done. cbn. eauto.
Qed.

Lemma new_iterator_cases f : usable f -> Forall is_byte (f_data f) ->
  (exists v t n tail, f_data f = recdb_header v t 0 n ++ tail /\ length t = 8%nat /\ is_u32 n /\
    exists f' it, r_new_iterator f = (f', Ret it) /\ f_data f' = f_data f) \/
  (~ (exists v t n tail, f_data f = recdb_header v t 0 n ++ tail /\ length t = 8%nat /\ is_u32 n) /\
    exists f' e, r_new_iterator f = (f', Err e) /\ f_data f' = f_data f).
Proof.
  intros Hu Hb. destruct (new_iterator_list f Hu) as (f' & Hd & Ho). unfold iobind in Ho.
  destruct (decide (take 5 (f_data f) = recdb_magic)) as [Hm|Hm].
  2:{ right. split.
      - intros (v & t & n & tail & E & _). apply Hm. rewrite E. done.
      - destruct (rread_prefix_bad _ Hm) as (l' & e & E). rewrite E in Ho. cbn [snd] in Ho. destruct Ho as (e' & Ho). eauto. }
  rewrite <- (take_drop 5 (f_data f)), Hm, rread_prefix_ok in Ho.
  destruct (decide (19 <= length (f_data f))%nat) as [Hl|Hl].
  2:{ right. split.
      - intros (v & t & n & tail & E & Ht & _). apply Hl. rewrite E. unfold recdb_header. rewrite !app_length, Ht.
        change (length (be32 n)) with 4%nat. cbn [length recdb_magic]. lia.
      - destruct (rread_header_short (drop 5 (f_data f))) as (e & E); [rewrite drop_length; lia|].
        rewrite E in Ho. destruct Ho as (e' & Ho). eauto. }
  pose proof (drop_length (f_data f) 5) as Hdl.
  assert (Hsp : exists v t l c rest, drop 5 (f_data f) = [v] ++ t ++ [l] ++ c ++ rest /\ length t = 8%nat /\ length c = 4%nat).
  { destruct (drop 5 (f_data f)) as [|v r0]; cbn [length] in Hdl; [lia|].
    pose proof (drop_length r0 8) as Hdl'. destruct (drop 8 r0) as [|l r1] eqn:E8; cbn [length] in Hdl'; [lia|].
    exists v, (take 8 r0), l, (take 4 r1), (drop 4 r1). rewrite take_drop. split.
    - cbn [app]. f_equal. rewrite <- (take_drop 8 r0) at 1. by rewrite E8.
    - rewrite !take_length. lia. }
  destruct Hsp as (v & t & l & c & rest & E5 & Ht & Hc).
  assert (E : f_data f = recdb_magic ++ [v] ++ t ++ [l] ++ c ++ rest).
  { rewrite <- (take_drop 5 (f_data f)), Hm, E5. done. }
  assert (Hbc : Forall is_byte c).
  { rewrite E in Hb. rewrite !Forall_app in Hb. tauto. }
  pose proof (be_dec_range c Hbc) as Hr. pose proof (be_enc_dec c Hbc) as Hed. rewrite Hc in Hr, Hed. rewrite pow256_4 in Hr.
  rewrite E5 in Ho. replace c with (be32 (be_dec c)) in Ho by exact Hed.
  rewrite rread_header_app in Ho by done. cbn [snd rh_locked] in Ho.
  destruct (Z.eqb_spec l 0) as [->|Hl0].
  - left. exists v, t, (be_dec c), rest. split; [|split; [done|split; [unfold is_u32; lia|]]].
    + rewrite E. unfold recdb_header. change (be32 (be_dec c)) with (be_enc 4 (be_dec c)). rewrite Hed, <- !app_assoc. done.
    + destruct Ho as (it & Ho). eauto.
  - right. split; [|eauto]. intros (v' & t' & n & tail & E' & Ht' & Hn). rewrite E in E'. unfold recdb_header in E'.
    rewrite <- !app_assoc in E'. apply app_inv_head in E'. cbn [app] in E'. injection E' as _ E'.
    apply app_inj_1 in E' as [_ E']; [|congruence]. by injection E'.
Qed.
