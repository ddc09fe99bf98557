(** Proofs about a process that dies while an entry of a recdb file is rewritten. *)
From Verif Require Import Base GoIO Lock Profile Recdb SpecFile SpecLock SpecRecdb SpecCrash RecdbSession
  GoIOFacts CodecFacts LockFacts FileBufferFacts DeltaFacts RecdbFacts.

(** ** What is left of a write that was cut short *)

Lemma cut_write f0 f1 off bs j : f_log f1 = f_log f0 ++ wsets off bs -> (off + length bs <= length (f_data f0))%nat ->
  crash_image f0 f1 j = take off (f_data f0) ++ take j bs ++ drop (off + length (take j bs)) (f_data f0).
Proof.
  intros Hl Hle. unfold crash_image, written_by. rewrite Hl, drop_app, wsets_take.
  rewrite replay_wsets by (right; lia). unfold splice.
  replace (off - length (f_data f0))%nat with 0%nat by lia. by rewrite app_nil_r.
Qed.

Lemma over_bytes (a old b new : list byte) j : length new = length old ->
  take (length a) (a ++ old ++ b) ++ take j new ++ drop (length a + length (take j new)) (a ++ old ++ b) =
  a ++ (take j new ++ drop j old) ++ b.
Proof.
  intros Hn. rewrite take_app, <- drop_drop, drop_app, <- app_assoc. do 2 f_equal.
  destruct (decide (j <= length old)%nat).
  - rewrite take_length, Nat.min_l by lia. by rewrite drop_app_le.
  - rewrite take_length, Nat.min_r, Hn, drop_app by lia. by rewrite (drop_ge old) by lia.
Qed.

Lemma cut_over a old b new off f0 f1 j : f_log f1 = f_log f0 ++ wsets off new ->
  f_data f0 = a ++ old ++ b -> length a = off -> length new = length old ->
  crash_image f0 f1 j = a ++ (take j new ++ drop j old) ++ b.
Proof.
  intros Hl Hd Ha Hn. rewrite (cut_write f0 f1 off new j) by (done || (rewrite Hd, !app_length; lia)).
  rewrite Hd, <- Ha. by apply over_bytes.
Qed.

(** ** The torn entry *)

Lemma stored_cap_bytes s : length (be32 (st_cap s)) = 4%nat.
Proof. done. Qed.

Lemma torn_length s s0 j : length (stored_bytes s) = length (stored_bytes s0) ->
  length (take j (stored_bytes s) ++ drop j (stored_bytes s0)) = length (stored_bytes s0).
Proof. intros H. rewrite app_length, take_length, drop_length. lia. Qed.

Lemma torn_head s s0 j : st_cap s = st_cap s0 ->
  exists t, take j (stored_bytes s) ++ drop j (stored_bytes s0) = be32 (st_cap s0) ++ t.
Proof.
  intros Hc. unfold stored_bytes. rewrite Hc. generalize ([st_deleted s] ++ stored_data s ++ st_free s) as a.
  generalize ([st_deleted s0] ++ stored_data s0 ++ st_free s0) as b. intros b a.
  pose proof (stored_cap_bytes s0) as H4.
  destruct (decide (j <= 4)%nat).
  - rewrite (take_app_le (be32 _)), (drop_app_le (be32 _)) by lia. rewrite app_assoc, take_drop. eauto.
  - rewrite (take_app_ge (be32 _)) by lia. rewrite <- app_assoc. eauto.
Qed.

Lemma stored_eq_cap s t r : stored_typed s -> forall c, is_u32 c -> stored_bytes s ++ r = be32 c ++ t -> st_cap s = c.
Proof.
  intros (Hc & _) c Hc' E. unfold stored_bytes in E. rewrite <- app_assoc in E.
  apply app_inj_1 in E as [E _]; [|done].
  rewrite !be32_enc in E. apply be_enc_inj in E; [done| |]; unfold is_u32 in *; cbn; lia.
Qed.

Lemma u64s_bytes l : Forall is_byte (concat (map be64 l)).
Proof.
  induction l as [|x l IH]; cbn [map concat]; [constructor|]. apply Forall_app. split; [|done].
  apply (be_enc_bytes 8).
Qed.

Lemma stored_bytes_bytes s : is_byte (st_deleted s) -> Forall is_byte (st_free s) -> Forall is_byte (stored_bytes s).
Proof.
  intros Hd Hf. unfold stored_bytes, stored_data, counted. rewrite !Forall_app.
  repeat split; [apply (be_enc_bytes 4)|by constructor|apply (be_enc_bytes 8)|apply (be_enc_bytes 4)|apply u64s_bytes
    |apply (be_enc_bytes 4)|apply u64s_bytes|done].
Qed.

(** Bytes that begin with a capacity and are as many, read in front of anything: they fail to
    be read, or are an entry of that capacity. *)
Lemma same_cap_read c t t' rest e : is_u32 c -> (5 <= c)%Z -> Z.of_nat (length t) = c -> t = be32 c ++ t' ->
  Forall is_byte (t ++ rest) ->
  (exists l' e' x, r_read_entry lread (t ++ rest, e) = ((l', e'), Err x)) \/
  (exists s', stored_typed s' /\ stored_fits s' /\ st_cap s' = c /\ t = stored_bytes s').
Proof.
  intros Hu H5 Hl Et Hb.
  destruct (read_entry_inv (t ++ rest) e Hb) as [?|(s' & l' & Ht' & El & _ & Hc')]; [by left|].
  right. exists s'.
  assert (Hcap : st_cap s' = c).
  { eapply (stored_eq_cap s' (t' ++ rest) l'); [done|done|]. by rewrite <- El, Et, <- app_assoc. }
  destruct Hc' as [[_ Hf']|[? _]]; [|lia].
  split; [done|]. split; [done|]. split; [done|].
  apply app_inj_1 in El as [? _]; [done|]. unfold stored_fits in Hf'. lia.
Qed.

Lemma stored_cap_ge s : stored_fits s -> (5 <= st_cap s)%Z.
Proof. intros H. unfold stored_fits in H. rewrite <- H, stored_bytes_length. unfold like_size. lia. Qed.

(** ** An iterator at the front of a file whose entries need not all be readable *)

Record it_front (n : Z) (rem : list byte) (f : file) (k : nat) (it : iter) : Prop := {
  if_ok : br_ok placed (it_reader it);
  if_rem : br_rem frem (it_reader it) = rem;
  if_index : it_index it = Z.of_nat k;
  if_count : rh_count (it_header it) = n
}.

Lemma new_iterator_front n rest f : is_u32 n -> healthy f ->
  f_data f = recdb_header 1 like_type 0 n ++ rest ->
  exists it, r_new_iterator f = (it_file it, Ret it) /\ it_front n rest f 0 it.
Proof.
  intros Hn Hh Hd. unfold r_new_iterator.
  unfold iobind at 1. unfold iomaperr at 1. change 0%Z with (Z.of_nat 0) at 1.
  rewrite usable_placed_seek by (done || lia).
  unfold iobind at 1.
  assert (Hp : placed (fset_pos 0 f)) by (split; [by apply fset_pos_healthy|cbn; lia]).
  assert (H1 : frem (fset_pos 0 f) = recdb_magic ++ [1%Z] ++ like_type ++ [0%Z] ++ be32 n ++ rest).
  { unfold frem. cbn [fset_pos f_pos f_data]. rewrite drop_0, Hd. unfold recdb_header. by rewrite <- !app_assoc. }
  destruct (follows_rprefix fread _ _ _ fread_lawful_in _ Hp) as (f1 & E1 & Hp1 & Hr1 & Hf1).
  rewrite H1, rread_prefix_ok in *. cbn [fst snd] in E1. unfold iomaperr at 1. rewrite E1. cbv beta iota.
  destruct (follows_rheader fread _ _ _ fread_lawful_in f1 Hp1) as (f2 & E2 & Hp2 & Hr2 & Hf2).
  cbn [fst snd] in Hr1. rewrite Hr1 in Hr2, E2.
  rewrite rread_header_app in Hr2, E2 by done. cbn [fst snd] in Hr2, E2.
  unfold iomaperr. rewrite E2. cbn [rh_locked Z.eqb negb].
  exists (Iter (RHeader 1 like_type 0 n) (new_breader f2) 0 zero_entry). split; [reflexivity|].
  split; cbn [it_header it_reader it_index new_breader br_r rh_count]; [done| |done|done].
  unfold br_rem. by cbn [new_breader br_buf br_r].
Qed.

Lemma front_next rsz n rem f k it : (0 < rsz)%nat -> it_front n rem f k it -> (Z.of_nat k < n)%Z ->
  exists e, (forall s r, rem = stored_bytes s ++ r -> stored_typed s -> stored_fits s ->
    exists it', r_next rsz it = (it', Ret (entry_of s)) /\ it_front n r f (S k) it') /\
  (forall l' e' x, r_read_entry lread (rem, e) = ((l', e'), Err x) ->
    exists it' y, r_next rsz it = (it', Err y)).
Proof.
  intros Hr H Hk. exists (it_entry it).
  unfold r_next, r_has_next. rewrite (if_index _ _ _ _ _ H), (if_count _ _ _ _ _ H).
  rewrite (proj2 (Z.ltb_lt _ _)) by done. cbn [negb].
  destruct (follows_rentry (br_read fread rsz) _ _ _ (iter_lawful rsz Hr) (it_reader it) (it_entry it)
    (if_ok _ _ _ _ _ H)) as (b & e & o & E & Hok' & Hp & Hf).
  rewrite (if_rem _ _ _ _ _ H) in Hp. rewrite E. split.
  - intros s r -> Ht Hfi. rewrite read_entry_app in Hp by done. injection Hp as Hrem <- <-.
    eexists. split; [reflexivity|].
    split; cbn [it_header it_reader it_index]; [done|done| |apply (if_count _ _ _ _ _ H)].
    try rewrite (if_index _ _ _ _ _ H). lia.
  - intros l' e' x E'. rewrite E' in Hp. injection Hp as _ _ <-. eexists _, _. reflexivity.
Qed.

Lemma front_nexts rsz n f rest : (0 < rsz)%nat ->
  (forall e, exists l' e' x, r_read_entry lread (rest, e) = ((l', e'), Err x)) ->
  forall la k it, it_front n (images la ++ rest) f k it -> Forall stored_typed la -> Forall stored_fits la ->
  (Z.of_nat (k + length la) < n)%Z ->
  snd (r_ops rsz (repeat OpNext (S (length la))) it) = map entry_answer la ++ [AFail].
Proof.
  intros Hr Hbad. induction la as [|s la IH]; intros k it H Hty Hfi Hk.
  - cbn [length repeat r_ops r_op map app]. cbn [length] in Hk.
    destruct (front_next rsz n _ f k it Hr H) as (e & _ & Hfail); [lia|].
    destruct (Hbad e) as (l' & e' & x & E). destruct (Hfail _ _ _ E) as (it' & y & ->). done.
  - apply Forall_cons in Hty as [Hty0 Hty]. apply Forall_cons in Hfi as [Hfi0 Hfi]. cbn [length] in Hk.
    destruct (front_next rsz n _ f k it Hr H) as (e & Hgood & _); [lia|].
    destruct (Hgood s (images la ++ rest)) as (it' & E & H'); [|done|done|].
    { change (images (s :: la)) with (stored_bytes s ++ images la). by rewrite <- app_assoc. }
    specialize (IH (S k) it' H' Hty Hfi ltac:(lia)).
    cbn [length]. change (repeat OpNext (S (S (length la)))) with (OpNext :: repeat OpNext (S (length la))).
    cbn [r_ops r_op map app]. rewrite E, entry_of_answer.
    destruct (r_ops rsz (repeat OpNext (S (length la))) it') as [it'' la'] eqn:E'. cbn [snd] in *. by rewrite IH.
Qed.
