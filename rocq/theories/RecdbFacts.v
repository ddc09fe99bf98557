(** Facts about the recdb protocol and iterator. *)
From Verif Require Import Base GoIO Lock Profile Recdb SpecFile SpecLock SpecRecdb RecdbSession
  GoIOFacts CodecFacts LockFacts FileBufferFacts DeltaFacts.

(** ** Readers with an entry on the side *)

Definition followsx {R F X} (ok : R -> Prop) (rem : R -> list byte) (fr : R -> F) {A}
    (m : io (R * X) A) (p : io (list byte * X) A) : Prop :=
  forall r x, ok r -> exists r' x' o, m (r, x) = ((r', x'), o) /\ ok r' /\
    p (rem r, x) = ((rem r', x'), o) /\ fr r' = fr r.

Section followsx.
  Context {R F X : Type} (ok : R -> Prop) (rem : R -> list byte) (fr : R -> F).
  Notation followsx := (@followsx R F X ok rem fr).

  Lemma followsx_lift {A} (o : outcome A) : followsx (iolift o) (iolift o).
  Proof. intros r x Hr. by exists r, x, o. Qed.
  Lemma followsx_ret {A} (a : A) : followsx (ioret a) (ioret a).
  Proof. apply (followsx_lift (Ret a)). Qed.
  Lemma followsx_fail {A} e : followsx (iofail e : io _ A) (iofail e).
  Proof. apply (followsx_lift (Err e)). Qed.

  Lemma followsx_bind {A B} (m : io (R * X) A) p (k : A -> io (R * X) B) q :
    followsx m p -> (forall a, followsx (k a) (q a)) -> followsx (iobind m k) (iobind p q).
  Proof.
    intros Hm Hk r x Hr. destruct (Hm r x Hr) as (r' & x' & o & Hmr & Hok & Hp & Hfr).
    unfold iobind. rewrite Hmr, Hp. destruct o as [a|e| |].
    - destruct (Hk a r' x' Hok) as (r'' & x'' & o & ? & ? & ? & ?).
      exists r'', x'', o. split; [done|]. split; [done|]. split; [done|]. congruence.
    - by exists r', x', (Err e).
    - by exists r', x', Panic.
    - by exists r', x', Hang.
  Qed.

  Lemma followsx_maperr {A} g (m : io (R * X) A) p : followsx m p -> followsx (iomaperr g m) (iomaperr g p).
  Proof.
    intros Hm r x Hr. destruct (Hm r x Hr) as (r' & x' & o & Hmr & Hok & Hp & Hfr).
    unfold iomaperr. rewrite Hmr, Hp. destruct o; by eexists _, _, _.
  Qed.

  Lemma followsx_fst {A} (m : io R A) p : follows ok rem fr m p -> followsx (on_fst m) (on_fst p).
  Proof.
    intros Hm r x Hr. destruct (Hm r Hr) as (r' & Hmr & Hok & Hrem & Hfr).
    exists r', x, (snd (p (rem r))). unfold on_fst. rewrite Hmr. split; [done|]. split; [done|].
    rewrite Hrem. by destruct (p (rem r)).
  Qed.

  Lemma followsx_snd {A} (m : io X A) : followsx (on_snd m) (on_snd m).
  Proof.
    intros r x Hr. unfold on_snd. destruct (m x) as [x' o]. by exists r, x', o.
  Qed.
End followsx.

Section follow.
  Context {R F : Type} (rd : reader R) (ok : R -> Prop) (rem : R -> list byte) (fr : R -> F).
  Hypothesis L : lawful_any rd ok rem fr.

  Lemma follows_rprefix : follows ok rem fr (r_read_prefix rd) (r_read_prefix lread).
  Proof.
    apply follows_bind; [by apply follows_read_full|]. intros bs.
    destruct (bool_decide _); [apply follows_ret|apply follows_fail].
  Qed.

  Lemma follows_rheader : follows ok rem fr (r_read_header rd) (r_read_header lread).
  Proof.
    apply follows_bind; [by apply follows_maperr, follows_read_full|]. intros bs. apply follows_ret.
  Qed.

  Lemma follows_rdata : followsx ok rem fr (r_read_entry_data rd) (r_read_entry_data lread).
  Proof.
    unfold r_read_entry_data.
    repeat (apply followsx_bind; [apply followsx_fst; by (apply follows_read_uint || apply follows_read_uint64s)|]; intros ?).
    apply followsx_bind; [apply followsx_snd|]. intros ?.
    apply followsx_bind; [apply followsx_lift|]. intros ?.
    apply followsx_bind; [apply followsx_snd|]. intros ?.
    destruct (_ <? _)%Z; [apply followsx_fail|apply followsx_ret].
  Qed.
End follow.

Lemma follows_rentry {R F} (rd : reader R) ok rem (fr : R -> F) : lawful rd ok rem fr ->
  followsx ok rem fr (r_read_entry rd) (r_read_entry lread).
Proof.
  intros L. pose proof (lawful_is_any _ _ _ _ L) as LA. apply followsx_maperr.
  apply followsx_bind; [by apply followsx_fst, follows_read_uint|]. intros ?.
  apply followsx_bind; [apply followsx_snd|]. intros ?.
  apply followsx_bind; [by apply followsx_fst, follows_read_full|]. intros ?.
  apply followsx_bind; [apply followsx_snd|]. intros ?.
  apply followsx_bind; [by apply follows_rdata|]. intros ?.
  apply followsx_bind; [by apply followsx_fst, follows_skip|]. intros ?.
  apply followsx_ret.
Qed.

(** ** Encodings *)

Definition u64s (l : list Z) : list byte := concat (map (be_enc 8) l).

Lemma u64s_length l : length (u64s l) = (8 * length l)%nat.
Proof.
  unfold u64s. induction l as [|x l IH]; [done|]. cbn [map concat]. rewrite app_length, IH, be_enc_length.
  cbn [length]. lia.
Qed.

Lemma counted_enc l : counted l = be_enc 4 (Z.of_nat (length l)) ++ u64s l.
Proof. done. Qed.

Lemma counted_length l : length (counted l) = (4 + 8 * length l)%nat.
Proof. rewrite counted_enc, app_length, u64s_length, be_enc_length. done. Qed.

Lemma stored_data_length s : Z.of_nat (length (stored_data s)) =
  like_size (Profile (st_user s) (st_likes s) (st_dislikes s)).
Proof.
  unfold stored_data, like_size. rewrite !app_length, !counted_length. cbn [p_likes p_dislikes].
  change (length (be64 (st_user s))) with 8%nat. lia.
Qed.

Lemma stored_bytes_length s : Z.of_nat (length (stored_bytes s)) =
  5 + like_size (Profile (st_user s) (st_likes s) (st_dislikes s)) + Z.of_nat (length (st_free s)).
Proof.
  unfold stored_bytes. rewrite !app_length, <- stored_data_length.
  change (length (be32 (st_cap s))) with 4%nat. cbn [length]. lia.
Qed.

Lemma groups_u64s l : forall n, n = length l -> groups n 8 (u64s l) = map (be_enc 8) l.
Proof.
  unfold u64s. induction l as [|x l IH]; intros n ->; [done|].
  cbn [map concat length groups].
  destruct (be_enc 8 x ++ concat (map (be_enc 8) l)) as [|b t] eqn:E.
  { apply (f_equal length) in E. rewrite app_length, be_enc_length in E. cbn in E. lia. }
  rewrite <- E. rewrite take_app_alt by by rewrite be_enc_length.
  rewrite drop_app_alt by by rewrite be_enc_length. by rewrite IH.
Qed.

Lemma read_uint64s_app l rest : Forall is_u64 l ->
  read_uint64s lread (length l) (u64s l ++ rest) = (rest, Ret l).
Proof.
  intros Hl. unfold read_uint64s, iobind. rewrite read_full_app by (rewrite u64s_length; lia).
  unfold ioret. rewrite groups_u64s by done. rewrite map_map. do 2 f_equal.
  rewrite <- (map_id l) at 2. apply map_ext_Forall.
  eapply Forall_impl; [done|]. intros x Hx. apply be_dec_enc. by rewrite pow256_8.
Qed.

(** ** Reading entries from a byte list *)

Lemma u32_cap c size : (5 <= c < 2 ^ 32)%Z -> (size <= c - 5)%Z -> (u32 (c - entry_header_size) <? size)%Z = false.
Proof. intros. unfold u32, entry_header_size. rewrite Z.mod_small by lia. apply Z.ltb_ge. lia. Qed.

Lemma like_size_ge p : (16 <= like_size p)%Z.
Proof. unfold like_size. lia. Qed.

Lemma read_data_app s rest e : is_u64 (st_user s) -> Forall is_u64 (st_likes s) -> Forall is_u64 (st_dislikes s) ->
  is_u32 (Z.of_nat (length (st_likes s))) -> is_u32 (Z.of_nat (length (st_dislikes s))) ->
  let p := Profile (st_user s) (st_likes s) (st_dislikes s) in
  r_read_entry_data lread (stored_data s ++ rest, e) =
    ((rest, REntry (re_cap e) (re_deleted e) (DProfile p)),
     if (u32 (re_cap e - entry_header_size) <? like_size p)%Z
     then Err (EMsg "entry's capacity is less than data len") else Ret (like_size p)).
Proof.
  intros Hu Hl Hd Hnl Hnd p. unfold r_read_entry_data, stored_data. rewrite !counted_enc.
  change (be64 ?n) with (be_enc 8 n). rewrite <- !app_assoc.
  unfold iobind at 1. unfold on_fst at 1. rewrite read_uint_app by apply be_enc_length.
  rewrite be_dec_enc by by rewrite pow256_8.
  unfold iobind at 1. unfold on_fst at 1. rewrite read_uint_app by apply be_enc_length.
  rewrite be_dec_enc by by rewrite pow256_4. rewrite Nat2Z.id.
  unfold iobind at 1. unfold on_fst at 1. rewrite read_uint64s_app by done.
  unfold iobind at 1. unfold on_fst at 1. rewrite read_uint_app by apply be_enc_length.
  rewrite be_dec_enc by by rewrite pow256_4. rewrite Nat2Z.id.
  unfold iobind at 1. unfold on_fst at 1. rewrite read_uint64s_app by done.
  fold p. unfold iobind, iolift, set_data, get_cap, on_snd, r_predict_data_size.
  destruct (_ <? _)%Z; done.
Qed.

Lemma skip_app free rest :
  only_err (skip_reading lread (Z.of_nat (length free))) (free ++ rest) = (rest, Ret tt).
Proof.
  unfold only_err.
  destruct (skip_reading_lawful lread _ _ _ lread_lawful (Z.of_nat (length free)) (free ++ rest) I)
    as (l' & -> & _ & Hr & _); [lia|].
  rewrite decide_True by (rewrite app_length; lia). cbn [fst snd] in Hr |- *.
  rewrite Nat2Z.id, drop_app_alt in Hr by done. by rewrite Hr.
Qed.

Lemma read_entry_app s rest e : stored_typed s -> stored_fits s ->
  r_read_entry lread (stored_bytes s ++ rest, e) = ((rest, entry_of s), Ret (st_cap s)).
Proof.
  intros (Hc & Hd & Hu & Hl & Hdl & Hnl & Hnd) Hf. unfold stored_fits in Hf. rewrite stored_bytes_length in Hf.
  pose proof (like_size_ge (Profile (st_user s) (st_likes s) (st_dislikes s))) as Hge.
  unfold r_read_entry, stored_bytes. change (be32 ?n) with (be_enc 4 n). rewrite <- !app_assoc.
  unfold iomaperr.
  unfold iobind at 1. unfold on_fst at 1. rewrite read_uint_app by apply be_enc_length.
  rewrite be_dec_enc by by rewrite pow256_4.
  unfold iobind at 1. unfold set_cap, on_snd.
  unfold iobind at 1. unfold on_fst at 1. rewrite read_full_app by done. rewrite be_dec_1.
  unfold iobind at 1. unfold set_deleted, on_snd. cbn [re_cap re_deleted re_data].
  unfold iobind at 1. rewrite read_data_app by done. cbn [re_cap re_deleted re_data].
  rewrite u32_cap by (unfold is_u32 in Hc; lia).
  unfold iobind at 1. unfold on_fst.
  replace (st_cap s - entry_header_size - _)%Z with (Z.of_nat (length (st_free s))) by (unfold entry_header_size; lia).
  by rewrite skip_app.
Qed.

(** With a capacity of 0 to 4 the check of line 66 wraps around. *)
Lemma read_entry_small s rest e : stored_typed s -> (st_cap s < 5)%Z -> st_free s = [] ->
  (like_size (Profile (st_user s) (st_likes s) (st_dislikes s)) <= 2 ^ 32 - 5 + st_cap s)%Z ->
  r_read_entry lread (stored_bytes s ++ rest, e) = ((rest, entry_of s), Ret (st_cap s)).
Proof.
  intros (Hc & Hd & Hu & Hl & Hdl & Hnl & Hnd) Hs Hfree Hsz. unfold is_u32 in Hc.
  pose proof (like_size_ge (Profile (st_user s) (st_likes s) (st_dislikes s))) as Hge.
  unfold r_read_entry, stored_bytes. rewrite Hfree, app_nil_r. change (be32 ?n) with (be_enc 4 n).
  rewrite <- !app_assoc.
  unfold iomaperr.
  unfold iobind at 1. unfold on_fst at 1. rewrite read_uint_app by apply be_enc_length.
  rewrite be_dec_enc by by rewrite pow256_4.
  unfold iobind at 1. unfold set_cap, on_snd.
  unfold iobind at 1. unfold on_fst at 1. rewrite read_full_app by done. rewrite be_dec_1.
  unfold iobind at 1. unfold set_deleted, on_snd. cbn [re_cap re_deleted re_data].
  unfold iobind at 1. rewrite read_data_app by done. cbn [re_cap re_deleted re_data].
  replace (u32 (st_cap s - entry_header_size)) with (st_cap s - 5 + 2 ^ 32)%Z.
  2:{ unfold u32, entry_header_size. apply (Z.mod_unique_pos _ _ (-1)); lia. }
  rewrite (proj2 (Z.ltb_ge _ _)) by lia.
  unfold iobind at 1. unfold on_fst, only_err. rewrite skip_reading_nonpos by (unfold entry_header_size; lia).
  done.
Qed.

Lemma u64s_groups n : forall bs, length bs = (8 * n)%nat -> Forall is_byte bs ->
  u64s (map be_dec (groups n 8 bs)) = bs /\ length (map be_dec (groups n 8 bs)) = n /\
  Forall is_u64 (map be_dec (groups n 8 bs)).
Proof.
  induction n as [|n IH]; intros bs Hl Hb.
  { destruct bs; [|cbn in Hl; lia]. split; [done|]. split; [done|]. by constructor. }
  destruct bs as [|b bs]; [cbn in Hl; lia|].
  change (groups (S n) 8 (b :: bs)) with (take 8 (b :: bs) :: groups n 8 (drop 8 (b :: bs))).
  set (l := b :: bs) in *. unfold u64s. cbn [map concat length].
  destruct (IH (drop 8 l)) as (H1 & H2 & H3).
  { rewrite drop_length. lia. }
  { by apply Forall_drop. }
  assert (Ht : length (take 8 l) = 8%nat) by (rewrite take_length; lia).
  assert (Hbt : Forall is_byte (take 8 l)) by by apply Forall_take.
  fold (u64s (map be_dec (groups n 8 (drop 8 l)))).
  pose proof (be_enc_dec _ Hbt) as He. rewrite Ht in He. rewrite He. rewrite H1, H2. split; [apply take_drop|].
  split; [done|]. apply Forall_cons. split; [|done].
  pose proof (be_dec_range _ Hbt) as Hr. rewrite Ht, pow256_8 in Hr. done.
Qed.

Lemma read_full_cases n l :
  (n <= length l)%nat /\ read_full lread n l = (drop n l, Ret (take n l)) \/
  (length l < n)%nat /\ exists e, read_full lread n l = ([], Err e).
Proof.
  destruct (decide (n <= length l)%nat).
  - left. split; [done|]. rewrite read_full_list, decide_True by done. done.
  - right. split; [lia|]. rewrite read_full_short by lia. eauto.
Qed.

Lemma read_data_inv l e : Forall is_byte l ->
  (exists l' e' x, r_read_entry_data lread (l, e) = ((l', e'), Err x)) \/
  (exists s l', st_cap s = re_cap e /\ st_deleted s = re_deleted e /\ st_free s = [] /\
     is_u64 (st_user s) /\ Forall is_u64 (st_likes s) /\ Forall is_u64 (st_dislikes s) /\
     is_u32 (Z.of_nat (length (st_likes s))) /\ is_u32 (Z.of_nat (length (st_dislikes s))) /\
     l = stored_data s ++ l').
Proof.
  intros Hb. unfold r_read_entry_data.
  unfold iobind at 1. unfold on_fst at 1.
  destruct (read_uint_cases 8 l) as [[H1 ->] | (H1 & x & ->)]; [|left; eauto].
  unfold iobind at 1. unfold on_fst at 1.
  set (l1 := drop 8 l). assert (Hb1 : Forall is_byte l1) by by apply Forall_drop.
  destruct (read_uint_cases 4 l1) as [[H2 ->] | (H2 & x & ->)]; [|left; eauto].
  unfold iobind at 1. unfold on_fst at 1.
  set (l2 := drop 4 l1). assert (Hb2 : Forall is_byte l2) by by apply Forall_drop.
  set (n1 := be_dec (take 4 l1)).
  unfold read_uint64s at 1. unfold iobind at 1.
  destruct (read_full_cases (8 * Z.to_nat n1) l2) as [[H3 ->] | (H3 & x & ->)]; [|left; eauto].
  unfold ioret at 1. unfold iobind at 1. unfold on_fst at 1.
  set (l3 := drop (8 * Z.to_nat n1) l2). assert (Hb3 : Forall is_byte l3) by by apply Forall_drop.
  destruct (read_uint_cases 4 l3) as [[H4 ->] | (H4 & x & ->)]; [|left; eauto].
  unfold iobind at 1. unfold on_fst at 1.
  set (l4 := drop 4 l3). assert (Hb4 : Forall is_byte l4) by by apply Forall_drop.
  set (n2 := be_dec (take 4 l3)).
  unfold read_uint64s at 1. unfold iobind at 1.
  destruct (read_full_cases (8 * Z.to_nat n2) l4) as [[H5 ->] | (H5 & x & ->)]; [|left; eauto].
  right.
  assert (R : forall k (m : list Z), Forall is_byte m -> (k <= length m)%nat ->
    be_enc k (be_dec (take k m)) = take k m /\ (0 <= be_dec (take k m) < 256 ^ Z.of_nat k)%Z).
  { intros k m Hm Hk. assert (Ht : length (take k m) = k) by (rewrite take_length; lia).
    assert (Hbt : Forall is_byte (take k m)) by by apply Forall_take.
    pose proof (be_enc_dec _ Hbt) as He. pose proof (be_dec_range _ Hbt) as Hr. rewrite Ht in *. done. }
  destruct (R 8%nat l Hb H1) as [E1 B1]. destruct (R 4%nat l1 Hb1 H2) as [E2 B2].
  destruct (R 4%nat l3 Hb3 H4) as [E4 B4]. fold n1 in E2, B2. fold n2 in E4, B4.
  rewrite pow256_8 in B1. rewrite pow256_4 in B2, B4.
  destruct (u64s_groups (Z.to_nat n1) (take (8 * Z.to_nat n1) l2)) as (G1 & G2 & G3).
  { rewrite take_length. lia. } { by apply Forall_take. }
  destruct (u64s_groups (Z.to_nat n2) (take (8 * Z.to_nat n2) l4)) as (K1 & K2 & K3).
  { rewrite take_length. lia. } { by apply Forall_take. }
  set (likes := map be_dec (groups (Z.to_nat n1) 8 (take (8 * Z.to_nat n1) l2))) in *.
  set (dislikes := map be_dec (groups (Z.to_nat n2) 8 (take (8 * Z.to_nat n2) l4))) in *.
  exists (Stored (re_cap e) (re_deleted e) (be_dec (take 8 l)) likes dislikes []), (drop (8 * Z.to_nat n2) l4).
  cbn [st_cap st_deleted st_free st_user st_likes st_dislikes]. rewrite G2, K2.
  split; [done|]. split; [done|]. split; [done|]. split; [done|]. split; [done|]. split; [done|].
  split; [unfold is_u32; lia|]. split; [unfold is_u32; lia|].
  unfold stored_data. rewrite !counted_enc. cbn [st_user st_likes st_dislikes].
  rewrite G2, K2, !Z2Nat.id by lia. rewrite G1, K1. change (be64 ?n) with (be_enc 8 n).
  rewrite E1, E2, E4, <- !app_assoc. rewrite take_drop. unfold l4. rewrite take_drop. unfold l3. rewrite take_drop.
  unfold l2. rewrite take_drop. unfold l1. by rewrite take_drop.
Qed.

Lemma read_entry_shape l e : Forall is_byte l ->
  (exists l' e' x, r_read_entry lread (l, e) = ((l', e'), Err x)) \/
  (exists s l', stored_typed s /\ l = stored_bytes s ++ l' /\
     ((5 <= st_cap s)%Z /\ stored_fits s \/ (st_cap s < 5)%Z /\ st_free s = [] /\
       (like_size (Profile (st_user s) (st_likes s) (st_dislikes s)) <= 2 ^ 32 - 5 + st_cap s)%Z)).
Proof.
  intros Hb. unfold r_read_entry, iomaperr.
  unfold iobind at 1. unfold on_fst at 1.
  destruct (read_uint_cases 4 l) as [[H1 E1] | (H1 & x & E1)]; rewrite E1; [|left; eauto].
  unfold iobind at 1. unfold set_cap, on_snd.
  set (c := be_dec (take 4 l)). set (l1 := drop 4 l). assert (Hb1 : Forall is_byte l1) by by apply Forall_drop.
  unfold iobind at 1. unfold on_fst at 1.
  destruct (read_full_cases 1 l1) as [[H2 E2] | (H2 & x & E2)]; rewrite E2; [|left; eauto].
  destruct l1 as [|d l2] eqn:El1; [cbn in H2; lia|]. change (drop 1 (d :: l2)) with l2 in *.
  change (take 1 (d :: l2)) with [d] in *. rewrite be_dec_1.
  unfold iobind at 1. unfold set_deleted, on_snd. cbn [re_cap re_deleted re_data].
  unfold iobind at 1. set (e2 := REntry c d (re_data e)).
  assert (Hb2 : Forall is_byte l2) by by apply Forall_cons in Hb1 as [_ ?].
  assert (Hd : is_byte d) by by apply Forall_cons in Hb1 as [? _].
  assert (Hbt : Forall is_byte (take 4 l)) by by apply Forall_take.
  assert (Htl : length (take 4 l) = 4%nat) by (rewrite take_length; lia).
  assert (Ec : be_enc 4 c = take 4 l) by (unfold c; rewrite <- Htl at 1; by apply be_enc_dec).
  assert (Bc : (0 <= c < 2 ^ 32)%Z) by (pose proof (be_dec_range _ Hbt) as Hr; by rewrite Htl, pow256_4 in Hr).
  assert (El : l = take 4 l ++ [d] ++ l2) by (cbn [app]; rewrite <- El1; unfold l1; by rewrite take_drop).
  destruct (read_data_inv l2 e2 Hb2) as [(l' & e' & x & E3) | (s & l3 & Sc & Sd & Sf & Su & Sl & Sdl & Snl & Snd & E3)].
  { rewrite E3. left. eauto. }
  cbn [e2 re_cap re_deleted] in Sc, Sd.
  rewrite E3. pose proof (read_data_app s l3 e2 Su Sl Sdl Snl Snd) as Hrd. cbn zeta in Hrd. rewrite Hrd. clear Hrd.
  cbn [e2 re_cap re_deleted].
  pose proof (like_size_ge (Profile (st_user s) (st_likes s) (st_dislikes s))) as Hge.
  set (p := Profile (st_user s) (st_likes s) (st_dislikes s)) in *.
  destruct (u32 (c - entry_header_size) <? like_size p)%Z eqn:Ef; [left; eauto|].
  apply Z.ltb_ge in Ef. unfold iobind at 1. unfold on_fst, only_err.
  destruct (decide (5 <= c)%Z) as [Hc5 | Hc5].
  - unfold u32, entry_header_size in Ef. rewrite Z.mod_small in Ef by lia.
    set (n := (c - entry_header_size - like_size p)%Z).
    destruct (skip_reading_lawful lread _ _ _ lread_lawful n l3 I) as (l4 & -> & _ & Hr & _).
    { unfold n, entry_header_size. lia. }
    destruct (decide (n <= Z.of_nat (length l3))%Z) as [Hn | Hn]; [|left; eauto].
    right.
    exists (Stored c d (st_user s) (st_likes s) (st_dislikes s) (take (Z.to_nat n) l3)), l4.
    cbn [fst snd] in Hr. split; [by repeat (split; [done|])|].
    split.
    { rewrite El at 1. unfold stored_bytes. cbn [st_cap st_deleted st_free].
      change (be32 c) with (be_enc 4 c). rewrite Ec, <- !app_assoc. do 2 f_equal. rewrite E3.
      unfold stored_data. cbn [st_user st_likes st_dislikes]. rewrite Hr. by rewrite take_drop. }
    left. split; [done|]. unfold stored_fits. rewrite stored_bytes_length.
    cbn [st_cap st_user st_likes st_dislikes st_free]. fold p. rewrite take_length. unfold n, entry_header_size in *. lia.
  - rewrite skip_reading_nonpos by (unfold entry_header_size; lia). right.
    exists s, l3. split.
    { split; [unfold is_u32; rewrite Sc; lia|]. split; [by rewrite Sd|]. by repeat (split; [done|]). }
    split.
    { rewrite El at 1. unfold stored_bytes. rewrite Sc, Sd, Sf, app_nil_r.
      change (be32 c) with (be_enc 4 c). rewrite Ec, <- !app_assoc. by rewrite E3. }
    right. split; [lia|]. split; [done|]. fold p. rewrite Sc.
    replace (u32 (c - entry_header_size)) with (c - 5 + 2 ^ 32)%Z in Ef.
    2:{ unfold u32, entry_header_size. apply (Z.mod_unique_pos _ _ (-1)); lia. }
    lia.
Qed.

(** Every byte list: reading fails, or the list begins with an entry. *)
Lemma read_entry_inv l e : Forall is_byte l ->
  (exists l' e' x, r_read_entry lread (l, e) = ((l', e'), Err x)) \/
  (exists s l', stored_typed s /\ l = stored_bytes s ++ l' /\
     r_read_entry lread (l, e) = ((l', entry_of s), Ret (st_cap s)) /\
     ((5 <= st_cap s)%Z /\ stored_fits s \/ (st_cap s < 5)%Z /\ st_free s = [])).
Proof.
  intros Hb. destruct (read_entry_shape l e Hb) as [? | (s & l' & Ht & -> & Hc)]; [by left|].
  right. exists s, l'. split; [done|]. split; [done|].
  destruct Hc as [[H1 H2] | (H1 & H2 & H3)].
  - rewrite read_entry_app by done. eauto.
  - rewrite read_entry_small by done. eauto.
Qed.

(** ** Writing *)

Lemma emits_data {W} (wr : writer W) ok img c d u l dl free : lawfulw wr ok img ->
  emits ok img (r_write_entry_data wr (entry_of (Stored c d u l dl free)))
    (stored_data (Stored c d u l dl free)) (like_size (Profile u l dl)).
Proof.
  intros L. unfold r_write_entry_data, stored_data. cbn [entry_of re_data st_user st_likes st_dislikes p_user p_likes p_dislikes].
  rewrite !counted_enc. change (be64 u) with (be_enc 8 u). rewrite <- !app_assoc.
  assert (M : forall n, be_enc 4 n = be_enc 4 (u32 n)).
  { intros n. rewrite <- (be_enc_mod 4 n). by rewrite pow256_4. }
  rewrite (M (Z.of_nat (length l))), (M (Z.of_nat (length dl))).
  eapply emits_bind; [by apply emits_write_uint|].
  eapply emits_bind; [by apply emits_write_uint|].
  eapply emits_bind; [by apply emits_write_uint64s|].
  eapply emits_bind; [by apply emits_write_uint|].
  rewrite <- (app_nil_r (u64s dl)).
  eapply emits_bind; [by apply emits_write_uint64s|].
  apply (emits_ret ok img (like_size (Profile u l dl))).
Qed.

(** The entry as WriteEntry lays it out: zeros up to the capacity. *)
Definition padded (s : stored) : stored :=
  Stored (st_cap s) (st_deleted s) (st_user s) (st_likes s) (st_dislikes s)
    (zeros (Z.to_nat (st_cap s - 5 - like_size (Profile (st_user s) (st_likes s) (st_dislikes s))))).

Lemma emits_entry {W} (wr : writer W) ok img s : lawfulw wr ok img -> is_byte (st_deleted s) ->
  emits ok img (r_write_entry wr (entry_of s)) (stored_bytes (padded s)) (st_cap s).
Proof.
  destruct s as [c d u l dl fr]. intros L Hd. unfold padded. cbn [st_cap st_deleted st_user st_likes st_dislikes] in *.
  set (free := zeros _).
  apply emits_maperr. unfold stored_bytes. cbn [st_cap st_deleted st_free].
  change (entry_of (Stored c d u l dl fr)) with (entry_of (Stored c d u l dl free)).
  cbn [re_cap re_deleted entry_of st_cap st_deleted].
  change (be32 c) with (be_enc 4 c).
  rewrite <- (be_enc_1 d) by done.
  eapply emits_bind; [by apply emits_write_uint|].
  eapply emits_bind; [by apply emits_write_uint|].
  eapply emits_bind; [by apply (emits_data wr ok img c d u l dl free)|].
  rewrite <- (app_nil_r free).
  eapply emits_bind; [|apply emits_ret].
  destruct (_ <? _)%Z eqn:E.
  - unfold free. apply emits_write_zeros, L.
  - apply Z.ltb_ge in E. unfold free. unfold entry_header_size in E.
    replace (Z.to_nat _) with 0%nat by lia. apply emits_ret.
Qed.

(** ** Prefix and header *)

Lemma rread_prefix_ok rest : r_read_prefix lread (recdb_magic ++ rest) = (rest, Ret tt).
Proof.
  unfold r_read_prefix, iobind. rewrite read_full_app by done. cbn.
  by rewrite bool_decide_true.
Qed.

Lemma rread_prefix_bad l : take 5 l <> recdb_magic ->
  exists l' e, r_read_prefix lread l = (l', Err e).
Proof.
  intros H. unfold r_read_prefix, iobind. change (length recdb_prefix) with 5%nat.
  rewrite read_full_list. destruct (decide (5 <= length l)%nat).
  - rewrite bool_decide_false by (intros E; apply H; exact E). cbn. eauto.
  - destruct (decide _); eauto.
Qed.

Lemma rread_header_app v t k c rest : length t = 8%nat -> is_u32 c ->
  r_read_header lread ([v] ++ t ++ [k] ++ be32 c ++ rest) = (rest, Ret (RHeader v t k c)).
Proof.
  intros Ht Hc. unfold r_read_header, iobind, iomaperr. change (Z.to_nat recdb_header_size) with 14%nat.
  change (be32 c) with (be_enc 4 c).
  do 8 (destruct t as [|? t]; [done|]). destruct t; [|done]. cbn [app].
  set (l := be_enc 4 c). assert (Hl : length l = 4%nat) by apply be_enc_length.
  change (v :: z :: z0 :: z1 :: z2 :: z3 :: z4 :: z5 :: z6 :: k :: l ++ rest) with
    ((v :: z :: z0 :: z1 :: z2 :: z3 :: z4 :: z5 :: z6 :: k :: l) ++ rest).
  rewrite read_full_app by (cbn [length]; lia). unfold ioret.
  set (b := v :: _). change (take 1 b) with [v]. change (take 1 (drop 9 b)) with [k].
  change (take 8 (drop 1 b)) with [z; z0; z1; z2; z3; z4; z5; z6].
  change (take 4 (drop 10 b)) with (take 4 l). rewrite !be_dec_1.
  rewrite take_ge by lia. unfold l. rewrite be_dec_enc by by rewrite pow256_4. done.
Qed.

(** ** The iterator *)

Definition placed (f : file) : Prop := healthy f /\ (f_pos f <= length (f_data f))%nat.

Lemma iter_lawful rsz : (0 < rsz)%nat ->
  lawful (br_read fread rsz) (br_ok placed) (br_rem frem) (br_frame fframe).
Proof. intros. apply br_read_lawful; [done|apply fread_lawful_in]. Qed.

Definition images (l : list stored) : list byte := concat (map stored_bytes l).

Lemma images_app a b : images (a ++ b) = images a ++ images b.
Proof. unfold images. by rewrite map_app, concat_app. Qed.

(** The file holds a header, the entries [l] and a tail. *)
Definition database (hdr : list byte) (l : list stored) (tail : list byte) (f : file) : Prop :=
  length hdr = 19%nat /\ f_data f = hdr ++ images l ++ tail /\
  Forall stored_typed l /\ Forall stored_fits l.

(** The iterator has read [k] entries. *)
Record it_at (tail : list byte) (l : list stored) (f : file) (k : nat) (it : iter) : Prop := {
  ia_ok : br_ok placed (it_reader it);
  ia_rem : br_rem frem (it_reader it) = images (drop k l) ++ tail;
  ia_frame : fframe (it_file it) = fframe f;
  ia_index : it_index it = Z.of_nat k;
  ia_le : (k <= length l)%nat;
  ia_count : rh_count (it_header it) = Z.of_nat (length l);
  ia_entry : (0 < k)%nat -> exists s, l !! (k - 1)%nat = Some s /\ re_cap (it_entry it) = st_cap s
}.

Lemma fframe_fields f g : fframe f = fframe g ->
  f_data f = f_data g /\ f_kind f = f_kind g /\ f_closed f = f_closed g /\ f_env f = f_env g /\ f_log f = f_log g.
Proof. destruct f, g. unfold fframe, fset_pos. cbn. intros [=]. done. Qed.

Lemma usable_placed_seek f n : healthy f -> (n <= length (f_data f))%nat ->
  fseek (Z.of_nat n) SeekStart f = (fset_pos n f, Ret (Z.of_nat n)).
Proof. intros. apply fseek_start_nat; [done|by right]. Qed.

Lemma new_iterator_ok v t l tail f : length t = 8%nat -> is_u32 (Z.of_nat (length l)) -> healthy f ->
  database (recdb_header v t 0 (Z.of_nat (length l))) l tail f ->
  exists it, r_new_iterator f = (it_file it, Ret it) /\ it_at tail l f 0 it /\
    br_buf (it_reader it) = [] /\ f_pos (it_file it) = 19%nat.
Proof.
  intros Ht Hn Hh (Hl & Hd & _ & _). unfold r_new_iterator.
  unfold iobind at 1. unfold iomaperr at 1. change 0%Z with (Z.of_nat 0) at 1.
  rewrite usable_placed_seek by (done || lia).
  unfold iobind at 1.
  assert (Hp : placed (fset_pos 0 f)) by (split; [by apply fset_pos_healthy|cbn; lia]).
  assert (H1 : frem (fset_pos 0 f) = recdb_magic ++ [v] ++ t ++ [0%Z] ++ be32 (Z.of_nat (length l)) ++ images l ++ tail).
  { unfold frem. cbn [fset_pos f_pos f_data]. rewrite drop_0, Hd. unfold recdb_header. by rewrite <- !app_assoc. }
  destruct (follows_rprefix fread _ _ _ fread_lawful_in _ Hp) as (f1 & E1 & Hp1 & Hr1 & Hf1).
  rewrite H1, rread_prefix_ok in *. cbn [fst snd] in E1. unfold iomaperr at 1. rewrite E1. cbv beta iota.
  destruct (follows_rheader fread _ _ _ fread_lawful_in f1 Hp1) as (f2 & E2 & Hp2 & Hr2 & Hf2).
  cbn [fst snd] in Hr1. rewrite Hr1 in Hr2, E2.
  rewrite rread_header_app in Hr2, E2 by done. cbn [fst snd] in Hr2, E2.
  unfold iomaperr. rewrite E2. cbn [rh_locked Z.eqb negb].
  exists (Iter (RHeader v t 0 (Z.of_nat (length l))) (new_breader f2) 0 zero_entry). split; [reflexivity|].
  split; [|split; [done|]].
  - split; cbn [it_header it_reader it_index it_entry new_breader br_r rh_count].
    + done.
    + unfold br_rem. cbn [new_breader br_buf br_r]. by rewrite drop_0.
    + unfold it_file. cbn. rewrite Hf2, Hf1. by destruct f.
    + done.
    + lia.
    + done.
    + lia.
  - unfold it_file. cbn. cbn in Hp2. destruct Hp2 as [_ Hp2]. unfold frem in Hr2.
    destruct (fframe_fields f2 f) as (Hdat & _); [rewrite Hf2, Hf1; by destruct f|].
    apply (f_equal length) in Hr2. rewrite drop_length, Hdat, Hd, !app_length, Hl in Hr2.
    rewrite Hdat, Hd, !app_length, Hl in Hp2. lia.
Qed.

Lemma rewind_at hdr l tail f k it : database hdr l tail f -> it_at tail l f k it ->
  exists it', r_rewind it = (it', Ret tt) /\ it_at tail l f 0 it' /\
    br_buf (it_reader it') = [] /\ f_pos (it_file it') = 19%nat.
Proof.
  intros (Hl & Hd & _ & _) H. pose proof (ia_ok _ _ _ _ _ H) as [[Hh Hp] _].
  destruct (fframe_fields _ _ (ia_frame _ _ _ _ _ H)) as (Hdat & _).
  unfold r_rewind. change recdb_entries_offset with (Z.of_nat 19).
  fold (it_file it) in *.
  rewrite usable_placed_seek; [|done|rewrite Hdat, Hd, app_length, Hl; lia].
  eexists. split; [reflexivity|]. split; [|done].
  split; cbn [it_header it_reader it_index it_entry].
  - split; [|done]. split; [by apply fset_pos_healthy|]. cbn. rewrite Hdat, Hd, app_length, Hl. lia.
  - unfold br_rem. cbn [new_breader br_buf br_r app]. unfold frem. cbn [fset_pos f_pos f_data].
    rewrite Hdat, Hd, drop_app_alt by done. by rewrite drop_0.
  - rewrite <- (ia_frame _ _ _ _ _ H). done.
  - done.
  - lia.
  - apply (ia_count _ _ _ _ _ H).
  - lia.
Qed.

Lemma has_next_at tail l f k it : it_at tail l f k it -> r_has_next it = bool_decide (k < length l)%nat.
Proof.
  intros H. unfold r_has_next. rewrite (ia_index _ _ _ _ _ H), (ia_count _ _ _ _ _ H).
  destruct (decide (k < length l)%nat).
  - rewrite bool_decide_true by done. apply Z.ltb_lt. lia.
  - rewrite bool_decide_false by done. apply Z.ltb_ge. lia.
Qed.

(** One entry read by any lawful use of the bufio.Reader. *)
Lemma next_at_gen rsz ok hdr l tail f k it s :
  lawful (br_read fread rsz) (br_ok ok) (br_rem frem) (br_frame fframe) ->
  (forall f, ok f -> placed f) -> br_ok ok (it_reader it) ->
  database hdr l tail f -> it_at tail l f k it -> l !! k = Some s ->
  exists it', r_next rsz it = (it', Ret (entry_of s)) /\ it_at tail l f (S k) it' /\ br_ok ok (it_reader it').
Proof.
  intros L Hsub Hok (_ & _ & Hty & Hfi) H Hs.
  assert (Hk : (k < length l)%nat) by by apply lookup_lt_Some in Hs.
  unfold r_next. rewrite (has_next_at _ _ _ _ _ H), bool_decide_true by done. cbn [negb].
  destruct (follows_rentry (br_read fread rsz) _ _ _ L (it_reader it) (it_entry it) Hok)
    as (b & e & o & E & Hok' & Hp & Hf).
  rewrite (ia_rem _ _ _ _ _ H) in Hp. rewrite (drop_S _ _ _ Hs) in Hp.
  change (images (s :: drop (S k) l)) with (stored_bytes s ++ images (drop (S k) l)) in Hp.
  rewrite <- app_assoc in Hp. rewrite read_entry_app in Hp.
  2:{ eapply Forall_lookup_1; [exact Hty|done]. }
  2:{ eapply Forall_lookup_1; [exact Hfi|done]. }
  injection Hp as Hrem <- <-. rewrite E.
  eexists. split; [reflexivity|]. split; [|done].
  split; cbn [it_header it_reader it_index it_entry].
  - destruct Hok' as [? ?]. split; [by apply Hsub|done].
  - done.
  - unfold it_file. cbn [it_reader]. unfold br_frame in Hf. rewrite Hf. apply (ia_frame _ _ _ _ _ H).
  - rewrite (ia_index _ _ _ _ _ H). lia.
  - lia.
  - apply (ia_count _ _ _ _ _ H).
  - intros _. exists s. by replace (S k - 1)%nat with k by lia.
Qed.

Lemma next_at rsz hdr l tail f k it s : (0 < rsz)%nat ->
  database hdr l tail f -> it_at tail l f k it -> l !! k = Some s ->
  exists it', r_next rsz it = (it', Ret (entry_of s)) /\ it_at tail l f (S k) it'.
Proof.
  intros Hr Hd H Hs.
  destruct (next_at_gen rsz placed hdr l tail f k it s (iter_lawful rsz Hr)) as (it' & ? & ? & _);
    [done|apply (ia_ok _ _ _ _ _ H)|done|done|done|]. eauto.
Qed.

Lemma next_end rsz tail l f k it : it_at tail l f k it -> l !! k = None ->
  exists e, r_next rsz it = (it, Err e).
Proof.
  intros H Hs. apply lookup_ge_None in Hs. unfold r_next.
  rewrite (has_next_at _ _ _ _ _ H), bool_decide_false by lia. cbn. eauto.
Qed.

Lemma entry_of_answer s : next_answer (Ret (entry_of s)) = entry_answer s.
Proof. done. Qed.

Lemma ops_at rsz hdr l tail f : (0 < rsz)%nat -> database hdr l tail f -> forall ops k it,
  it_at tail l f k it ->
  exists it', r_ops rsz ops it = (it', iterate l k ops) /\ it_at tail l f (entries_read (length l) k ops) it'.
Proof.
  intros Hr Hd. induction ops as [|op ops IH]; intros k it H; [eauto|].
  cbn [r_ops iterate entries_read]. destruct op; cbn [r_op].
  - destruct (IH k it H) as (it' & -> & H'). rewrite (has_next_at _ _ _ _ _ H). eauto.
  - destruct (l !! k) as [s|] eqn:Es.
    + destruct (next_at rsz hdr l tail f k it s) as (it1 & -> & H1); [done|done|done|done|].
      rewrite entry_of_answer. destruct (IH (S k) it1 H1) as (it' & -> & H').
      apply lookup_lt_Some in Es. rewrite (proj2 (Nat.ltb_lt _ _)) by done. eauto.
    + destruct (next_end rsz tail l f k it H Es) as [e ->].
      destruct (IH k it H) as (it' & -> & H'). apply lookup_ge_None in Es.
      rewrite (proj2 (Nat.ltb_ge _ _)) by done. eauto.
  - destruct (rewind_at hdr l tail f k it Hd H) as (it1 & -> & H1 & _).
    destruct (IH 0%nat it1 H1) as (it' & -> & H'). eauto.
Qed.

(** *** SetPrevious *)

Lemma padded_zeros s : stored_fits s -> Forall (fun b => b = 0%Z) (st_free s) -> padded s = s.
Proof.
  intros Hf Hz. destruct s as [c d u l dl fr]. unfold stored_fits in Hf. rewrite stored_bytes_length in Hf.
  unfold padded. cbn [st_cap st_deleted st_user st_likes st_dislikes st_free] in *. f_equal.
  replace (Z.to_nat _) with (length fr) by lia. unfold zeros.
  clear Hf. induction Hz as [|b fr -> _ IH]; [done|]. cbn. by f_equal.
Qed.

(** The file stands where the bufio.Reader has read to; the entry is written in the
    [st_cap] bytes before that. *)
Lemma set_previous_writes l tail f k it s s0 : it_at tail l f k it -> l !! (k - 1)%nat = Some s0 -> (0 < k)%nat ->
  stored_typed s -> st_cap s = st_cap s0 -> (st_cap s <= Z.of_nat (f_pos (it_file it)))%Z ->
  let off := (f_pos (it_file it) - Z.to_nat (st_cap s))%nat in
  exists it', r_set_previous (entry_of s) it = (it', Ret tt) /\
    it_file it' = fput (stored_bytes (padded s)) (fset_pos off (it_file it)) /\
    it_reader it' = new_breader (it_file it') /\ it_index it' = Z.of_nat k /\
    it_header it' = it_header it /\ it_entry it' = it_entry it.
Proof.
  intros H Hs0 Hk (Hc & Hde & _) Hcap Hle off. unfold is_u32 in Hc.
  pose proof (ia_ok _ _ _ _ _ H) as [[Hh Hp] _]. fold (it_file it) in *.
  unfold r_set_previous. rewrite (ia_index _ _ _ _ _ H).
  rewrite (proj2 (Z.eqb_neq _ _)) by lia.
  destruct (ia_entry _ _ _ _ _ H Hk) as (s1 & Hs1 & ->). rewrite Hs0 in Hs1. injection Hs1 as <-.
  cbn [re_cap entry_of]. rewrite Hcap, Z.eqb_refl. cbn [negb]. rewrite <- Hcap.
  unfold iobind at 1. unfold iomaperr at 1.
  assert (Es : fseek (- st_cap s) SeekCurrent (it_file it) = (fset_pos off (it_file it), Ret (Z.of_nat off))).
  { unfold fseek. destruct Hh as [-> _].
    replace (Z.of_nat (f_pos (it_file it)) + - st_cap s)%Z with (Z.of_nat off) by (unfold off; lia).
    rewrite Nat2Z.id. rewrite (proj2 (Z.ltb_ge _ _)) by lia. cbn [orb].
    rewrite (proj2 (Z.ltb_ge (Z.of_nat (length _)) _)) by (unfold off; lia). by destruct (f_kind _). }
  rewrite Es. unfold iobind at 1. unfold iomaperr at 1.
  destruct (emits_entry fwrite healthy (fun f => f) s fwrite_lawful Hde (fset_pos off (it_file it)))
    as (f' & E & Hh' & Hf'); [by apply fset_pos_healthy|].
  rewrite E. unfold u32. rewrite Z.mod_small by lia. rewrite Z.eqb_refl. cbn [negb].
  eexists. split; [reflexivity|]. unfold it_file at 1 2. cbn [it_reader new_breader br_r it_index it_header it_entry].
  split; [done|]. done.
Qed.

Lemma frem_end f : placed f -> frem f = [] -> f_pos f = length (f_data f).
Proof.
  intros [_ Hp] H. apply (f_equal length) in H. unfold frem in H. rewrite drop_length in H. cbn in H. lia.
Qed.

(** When everything has been read and nothing follows, SetPrevious is right. *)
Lemma set_previous_last rsz hdr l f it s s0 : (0 < rsz)%nat -> database hdr (l ++ [s0]) [] f ->
  it_at [] (l ++ [s0]) f (length (l ++ [s0])) it ->
  stored_typed s -> stored_fits s -> Forall (fun b => b = 0%Z) (st_free s) -> st_cap s = st_cap s0 ->
  exists it', r_set_previous (entry_of s) it = (it', Ret tt) /\
    database hdr (l ++ [s]) [] (it_file it') /\
    f_data (it_file it') = hdr ++ images l ++ stored_bytes s /\
    it_at [] (l ++ [s]) (it_file it') (length (l ++ [s])) it'.
Proof.
  intros Hr (Hl & Hd & Hty & Hfi) H Hts Hfs Hz Hcap.
  assert (Hlen : length (l ++ [s0]) = S (length l)) by (rewrite app_length; cbn; lia).
  pose proof (ia_ok _ _ _ _ _ H) as [Hp _]. fold (it_file it) in Hp.
  pose proof (ia_rem _ _ _ _ _ H) as Hrem. rewrite drop_all in Hrem. unfold br_rem in Hrem.
  cbn [images map concat app] in Hrem. apply app_eq_nil in Hrem as [Hbuf Hrem]. fold (it_file it) in Hrem.
  pose proof (frem_end _ Hp Hrem) as Hpos.
  destruct (fframe_fields _ _ (ia_frame _ _ _ _ _ H)) as (Hdat & _).
  assert (Hs0 : (l ++ [s0]) !! (length (l ++ [s0]) - 1)%nat = Some s0).
  { rewrite Hlen. replace (S (length l) - 1)%nat with (length l) by lia. by rewrite lookup_app_r, Nat.sub_diag by lia. }
  assert (Hfs0 : stored_fits s0) by (apply Forall_app in Hfi as [_ Hfi]; by apply Forall_cons in Hfi as [? _]).
  assert (Himg : images (l ++ [s0]) = images l ++ stored_bytes s0).
  { rewrite images_app. unfold images at 2. cbn. by rewrite app_nil_r. }
  assert (Hlens : length (stored_bytes s) = length (stored_bytes s0)).
  { unfold stored_fits in *. lia. }
  assert (Htot : length (f_data (it_file it)) = (19 + length (images l) + length (stored_bytes s0))%nat).
  { rewrite Hdat, Hd, Himg, !app_length, Hl. cbn. lia. }
  destruct (set_previous_writes (l ++ [s0]) [] f (length (l ++ [s0])) it s s0) as (it' & E & Hf' & Hb' & Hi' & Hh' & He').
  { done. } { done. } { lia. } { done. } { done. }
  { rewrite Hpos, Htot. unfold stored_fits in *. lia. }
  rewrite padded_zeros in Hf' by done.
  set (off := (f_pos (it_file it) - Z.to_nat (st_cap s))%nat) in *.
  assert (Hoff : off = length (hdr ++ images l)).
  { unfold off. rewrite Hpos, Htot, app_length, Hl. unfold stored_fits in *. lia. }
  assert (Hdat' : f_data (it_file it') = hdr ++ images l ++ stored_bytes s).
  { rewrite Hf', fput_data by (cbn; lia). cbn [fset_pos f_pos f_data].
    rewrite Hdat, Hd, Himg, app_nil_r.
    rewrite app_assoc. rewrite splice_prefix by done. rewrite drop_ge by lia. by rewrite app_nil_r, <- app_assoc. }
  assert (Hdb : database hdr (l ++ [s]) [] (it_file it')).
  { split; [done|]. split.
    - rewrite Hdat', images_app. unfold images at 3. cbn. by rewrite !app_nil_r.
    - apply Forall_app in Hty as [? _], Hfi as [? _].
      split; apply Forall_app; (split; [done|]); by apply Forall_cons. }
  assert (Hlen' : length (l ++ [s]) = S (length l)) by (rewrite app_length; cbn; lia).
  assert (Hpos' : f_pos (it_file it') = length (f_data (it_file it'))).
  { rewrite Hf' at 1. rewrite fput_pos. cbn [fset_pos f_pos]. rewrite Hdat', Hoff, !app_length. lia. }
  exists it'. split; [done|]. split; [done|]. split; [done|].
    split.
    + rewrite Hb'. split; [|done]. cbn [new_breader br_r]. split; [|lia].
      rewrite Hf'. apply fput_healthy, fset_pos_healthy, Hp.
    + rewrite Hb', drop_all. unfold br_rem. cbn [new_breader br_buf br_r]. unfold frem.
      by rewrite Hpos', drop_all.
    + done.
    + rewrite Hi'. lia.
    + done.
    + rewrite Hh', (ia_count _ _ _ _ _ H). lia.
    + intros _. exists s. split.
      * rewrite Hlen'. replace (S (length l) - 1)%nat with (length l) by lia.
        by rewrite lookup_app_r, Nat.sub_diag by lia.
      * rewrite He'. destruct (ia_entry _ _ _ _ _ H) as (s1 & Hs1 & ->); [lia|]. rewrite Hs0 in Hs1.
        injection Hs1 as <-. done.
Qed.

(** A bufio.Reader whose buffer can take the whole rest of the file reads it at once. *)
Definition drained (f : file) : Prop := placed f /\ frem f = [].

Lemma drained_lawful rsz : (0 < rsz)%nat ->
  lawful (br_read fread rsz) (br_ok drained) (br_rem frem) (br_frame fframe).
Proof.
  intros Hr. apply br_read_lawful; [done|]. split.
  - intros n f [Hp Hd] Hn _.
    destruct (lawful_eof _ _ _ _ fread_lawful_in n f Hp Hn Hd) as (f' & ? & ? & ? & ?). by exists f'.
  - intros n f [Hp Hd] Hn Hne. done.
Qed.

Definition at_end (f : file) : file := fset_pos (length (f_data f)) f.

Lemma br_read_fill rsz n f : placed f -> (0 < n < rsz)%nat -> frem f <> [] -> (length (frem f) <= rsz)%nat ->
  br_read fread rsz n (new_breader f) = br_read fread rsz n (BReader (at_end f) (frem f) None).
Proof.
  intros [[Hc He] Hp] Hn Hne Hl. unfold br_read. cbn [new_breader br_buf br_err br_r].
  destruct n as [|n]; [lia|]. rewrite (proj2 (Nat.leb_gt _ _)) by lia.
  unfold fread, next_fault. rewrite Hc, He. fold (frem f).
  destruct (frem f) as [|b r] eqn:E; [done|]. destruct rsz as [|rsz]; [lia|].
  assert (Ht : take (S rsz) (b :: r) = b :: r) by (rewrite take_ge; [done|lia]).
  rewrite Ht.
  assert (Hpos : fset_pos (f_pos f + length (b :: r)) f = at_end f).
  { unfold at_end. f_equal. rewrite <- E. unfold frem. rewrite drop_length. lia. }
  rewrite Hpos. by destruct (f_kind f).
Qed.

Lemma bind_fst_same {S T A B} (m : io S A) (q : A -> io (S * T) B) s s' t : m s = m s' ->
  iobind (on_fst m) q (s, t) = iobind (on_fst m) q (s', t).
Proof. intros E. unfold iobind, on_fst. by rewrite E. Qed.

Lemma next_fill rsz hdr l tail f it : database hdr l tail f -> it_at tail l f 0 it ->
  br_buf (it_reader it) = [] -> (length (images l ++ tail) <= rsz)%nat -> l <> [] ->
  r_next rsz it = r_next rsz (Iter (it_header it) (BReader (at_end (it_file it)) (frem (it_file it)) None)
                                (it_index it) (it_entry it)) /\
  it_at tail l f 0 (Iter (it_header it) (BReader (at_end (it_file it)) (frem (it_file it)) None)
                                (it_index it) (it_entry it)) /\
  drained (at_end (it_file it)) /\ (0 < rsz)%nat.
Proof.
  intros (Hl & Hd & Hty & Hfi) H Hbuf Hsz Hne.
  pose proof (ia_ok _ _ _ _ _ H) as [Hp He]. fold (it_file it) in Hp.
  pose proof (ia_rem _ _ _ _ _ H) as Hrem. rewrite drop_0 in Hrem. unfold br_rem in Hrem. fold (it_file it) in Hrem.
  rewrite Hbuf in Hrem. cbn [app] in Hrem.
  assert (H21 : (21 <= length (frem (it_file it)))%nat).
  { rewrite Hrem. destruct l as [|s l]; [done|]. unfold images. cbn [map concat]. rewrite !app_length.
    pose proof (stored_bytes_length s). pose proof (like_size_ge (Profile (st_user s) (st_likes s) (st_dislikes s))). lia. }
  assert (Hre : it_reader it = new_breader (it_file it)).
  { unfold it_file. destruct (it_reader it) as [r b e]. cbn in *. by subst. }
  assert (Hdr : drained (at_end (it_file it))).
  { split; [split; [by apply fset_pos_healthy, Hp|done]|]. unfold frem, at_end. cbn [fset_pos f_pos f_data]. by rewrite drop_all. }
  split; [|split; [|split; [done|rewrite Hrem in H21; lia]]].
  - unfold r_next, r_has_next. cbn [it_header it_index it_entry it_reader].
    destruct (negb _) eqn:En; [exfalso|].
    { rewrite (ia_index _ _ _ _ _ H), (ia_count _ _ _ _ _ H) in En. apply negb_true_iff, Z.ltb_ge in En.
      destruct l; [done|]. cbn [length] in En. lia. }
    rewrite Hre. unfold it_file at 2. cbn [it_reader new_breader br_r]. fold (it_file it).
    assert (E : forall e, r_read_entry (br_read fread rsz) (new_breader (it_file it), e) =
      r_read_entry (br_read fread rsz) (BReader (at_end (it_file it)) (frem (it_file it)) None, e)).
    { intros e. unfold r_read_entry, iomaperr.
      assert (R : read_uint (br_read fread rsz) 4 (new_breader (it_file it)) =
                  read_uint (br_read fread rsz) 4 (BReader (at_end (it_file it)) (frem (it_file it)) None)).
      { unfold read_uint, iobind, read_full. cbn [read_full_loop]. cbn [length Nat.leb Nat.sub].
        rewrite br_read_fill; [done|done|rewrite Hrem in H21; lia|intros E; rewrite E in H21; cbn in H21; lia|by rewrite Hrem]. }
      match goal with |- match iobind _ ?q _ with _ => _ end = _ =>
        by rewrite (bind_fst_same (read_uint (br_read fread rsz) 4) q _ _ e R) end. }
    by rewrite E.
  - split; cbn [it_header it_index it_entry it_reader].
    + split; [apply Hdr|done].
    + unfold br_rem. cbn [br_buf br_r]. rewrite (proj2 Hdr), app_nil_r, drop_0. done.
    + rewrite <- (ia_frame _ _ _ _ _ H). done.
    + apply (ia_index _ _ _ _ _ H).
    + lia.
    + apply (ia_count _ _ _ _ _ H).
    + lia.
Qed.

(** Once an entry has been read, the file stands at its end. *)
Lemma ops_drain rsz hdr l tail f : (0 < rsz)%nat -> database hdr l tail f -> (length (images l ++ tail) <= rsz)%nat ->
  forall ops k it, it_at tail l f k it ->
  (k = 0%nat /\ br_buf (it_reader it) = [] \/ drained (it_file it)) ->
  let it' := fst (r_ops rsz ops it) in let k' := entries_read (length l) k ops in
  it_at tail l f k' it' /\ (k' = 0%nat /\ br_buf (it_reader it') = [] \/ drained (it_file it')).
Proof.
  intros Hr Hd Hsz. induction ops as [|op ops IH]; intros k it H Hdr; [done|].
  cbn [r_ops entries_read]. destruct op; cbn [r_op].
  - specialize (IH k it H Hdr). by destruct (r_ops rsz ops it).
  - destruct (l !! k) as [s|] eqn:Es.
    + assert (exists it1, r_next rsz it = (it1, Ret (entry_of s)) /\ it_at tail l f (S k) it1 /\ drained (it_file it1))
        as (it1 & E1 & H1 & D1).
      { destruct Hdr as [[-> Hbuf] | Hdr].
        - destruct (next_fill rsz hdr l tail f it Hd H Hbuf Hsz) as (-> & H0 & D0 & _); [by destruct l|].
          edestruct (next_at_gen rsz drained) as (it1 & E1 & H1 & D1);
            [by apply drained_lawful|by intros ? [? ?]| |exact Hd|exact H0|exact Es|].
          { split; [done|done]. }
          exists it1. split; [done|]. split; [done|]. apply D1.
        - edestruct (next_at_gen rsz drained) as (it1 & E1 & H1 & D1);
            [by apply drained_lawful|by intros ? [? ?]| |exact Hd|exact H|exact Es|].
          { split; [done|]. apply (ia_ok _ _ _ _ _ H). }
          exists it1. split; [done|]. split; [done|]. apply D1. }
      rewrite E1. apply lookup_lt_Some in Es. rewrite (proj2 (Nat.ltb_lt _ _)) by done.
      specialize (IH (S k) it1 H1 (or_intror D1)). by destruct (r_ops rsz ops it1).
    + destruct (next_end rsz tail l f k it H Es) as [e ->]. apply lookup_ge_None in Es.
      rewrite (proj2 (Nat.ltb_ge _ _)) by done.
      specialize (IH k it H Hdr). by destruct (r_ops rsz ops it).
  - destruct (rewind_at hdr l tail f k it Hd H) as (it1 & -> & H1 & Hb1 & _).
    specialize (IH 0%nat it1 H1 (or_introl (conj eq_refl Hb1))). by destruct (r_ops rsz ops it1).
Qed.

(** ** One entry through a reader that may report EOF with the last bytes *)

(** ReadEntry up to the free space. *)
Definition read_entry_head {R} (rd : reader R) : io (R * rentry) (Z * Z) :=
  do capacity <- on_fst (read_uint rd 4);
  run set_cap capacity;
  do bytes <- on_fst (read_full rd 1);
  run set_deleted (be_dec bytes);
  do dataLen <- r_read_entry_data rd;
  ioret (capacity, capacity - entry_header_size - dataLen)%Z.

Lemma read_entry_split {R} (rd : reader R) st :
  r_read_entry rd st =
  iomaperr (fun _ => EMsg "failed to read database entry")
    (do x <- read_entry_head rd; run on_fst (only_err (skip_reading rd (snd x))); ioret (fst x)) st.
Proof.
  unfold r_read_entry, read_entry_head, iomaperr, iobind, ioret.
  destruct (on_fst (read_uint rd 4) st) as [s1 [a1|?| |]]; try reflexivity.
  destruct (set_cap a1 s1) as [s2 [?|?| |]]; try reflexivity.
  destruct (on_fst (read_full rd 1) s2) as [s3 [a3|?| |]]; try reflexivity.
  destruct (set_deleted (be_dec a3) s3) as [s4 [?|?| |]]; try reflexivity.
  destruct (r_read_entry_data rd s4) as [s5 [?|?| |]]; reflexivity.
Qed.

Lemma follows_rhead {R F} (rd : reader R) ok rem (fr : R -> F) : lawful_any rd ok rem fr ->
  followsx ok rem fr (read_entry_head rd) (read_entry_head lread).
Proof.
  intros L.
  apply followsx_bind; [by apply followsx_fst, follows_read_uint|]. intros ?.
  apply followsx_bind; [apply followsx_snd|]. intros ?.
  apply followsx_bind; [by apply followsx_fst, follows_read_full|]. intros ?.
  apply followsx_bind; [apply followsx_snd|]. intros ?.
  apply followsx_bind; [by apply follows_rdata|]. intros ?.
  apply followsx_ret.
Qed.

Lemma read_entry_upto {R F} (rd : reader R) ok rem (fr : R -> F) : lawful_any rd ok rem fr ->
  forall r e s tail, ok r -> stored_typed s -> stored_fits s -> rem r = stored_bytes s ++ tail ->
  exists r1, ok r1 /\ rem r1 = st_free s ++ tail /\
    forall r2 n x, skip_reading rd (Z.of_nat (length (st_free s))) r1 = (r2, (n, x)) ->
    r_read_entry rd (r, e) = ((r2, entry_of s),
      match x with None => Ret (st_cap s) | Some _ => Err (EMsg "failed to read database entry") end).
Proof.
  intros L r e s tail Hr (Hc & Hd & Hu & Hl & Hdl & Hnl & Hnd) Hf E.
  unfold stored_fits in Hf. rewrite stored_bytes_length in Hf.
  pose proof (like_size_ge (Profile (st_user s) (st_likes s) (st_dislikes s))) as Hge.
  rewrite read_entry_split. unfold iomaperr.
  destruct (follows_rhead rd ok rem fr L r e Hr) as (r1 & e1 & o & H & Hok & Hp & _).
  unfold iobind at 1. rewrite H. clear H.
  rewrite E in Hp. revert Hp. unfold read_entry_head, stored_bytes. change (be32 ?n) with (be_enc 4 n).
  rewrite <- !app_assoc.
  unfold iobind at 1. unfold on_fst at 1. rewrite read_uint_app by apply be_enc_length.
  rewrite be_dec_enc by by rewrite pow256_4.
  unfold iobind at 1. unfold set_cap, on_snd.
  unfold iobind at 1. unfold on_fst at 1. rewrite read_full_app by done. rewrite be_dec_1.
  unfold iobind at 1. unfold set_deleted, on_snd. cbn [re_cap re_deleted re_data].
  unfold iobind at 1. rewrite read_data_app by done. cbn [re_cap re_deleted re_data].
  rewrite u32_cap by (unfold is_u32 in Hc; lia). unfold ioret.
  replace (st_cap s - entry_header_size - _)%Z with (Z.of_nat (length (st_free s))) by (unfold entry_header_size; lia).
  intros Hp. injection Hp as Hrem He1 Ho. subst o.
  exists r1. split; [done|]. split; [done|]. intros r2 n x Hs.
  unfold iobind, on_fst, only_err. cbn [fst snd]. rewrite Hs. unfold entry_of. rewrite <- He1.
  by destruct x.
Qed.

Lemma read_entry_any {R F} (rd : reader R) ok rem (fr : R -> F) : lawful_any rd ok rem fr ->
  forall r e s tail, ok r -> stored_typed s -> stored_fits s -> rem r = stored_bytes s ++ tail ->
  exists r' o, r_read_entry rd (r, e) = ((r', entry_of s), o) /\ ok r' /\ rem r' = tail /\
    (o = Ret (st_cap s) \/ o = Err (EMsg "failed to read database entry")) /\
    (tail <> [] \/ st_free s = [] -> o = Ret (st_cap s)).
Proof.
  intros L r e s tail Hr Ht Hf E.
  destruct (read_entry_upto rd ok rem fr L r e s tail Hr Ht Hf E) as (r1 & Hok & Hrem & H).
  destruct (skip_reading_any rd ok rem fr L (length (st_free s)) r1 Hok)
    as (r2 & x & Hs & Hok2 & Hrem2 & _ & Hx & Hx1 & _).
  rewrite (H _ _ _ Hs). rewrite Hrem in *. rewrite drop_app_alt in Hrem2 by done.
  assert (Hn : tail <> [] \/ st_free s = [] -> x = None).
  { intros Hc. apply Hx1. rewrite app_length.
    destruct Hc as [Hc | ->]; [left|by right]. destruct tail; [done|cbn; lia]. }
  destruct Hx as [-> | ->].
  - exists r2, (Ret (st_cap s)). repeat (split; [by auto|]). done.
  - eexists r2, _. split; [done|]. split; [done|]. split; [done|]. split; [by right|].
    intros Hc. by apply Hn in Hc.
Qed.

(** Through a bufio.Reader no success is lost. *)
Lemma read_entry_bufio {R F} (rd : reader R) ok rem (fr : R -> F) size :
  lawful_any rd ok rem fr -> (100 < size)%nat ->
  forall b e s tail, bra_ok ok rem b -> stored_typed s -> stored_fits s ->
  br_rem rem b = stored_bytes s ++ tail ->
  exists b', r_read_entry (br_read rd size) (b, e) = ((b', entry_of s), Ret (st_cap s)) /\
    bra_ok ok rem b' /\ br_rem rem b' = tail.
Proof.
  intros L Hsz b e s tail Hb Ht Hf E.
  destruct (read_entry_upto _ _ _ _ (br_read_any rd ok rem fr size ltac:(lia) L) b e s tail Hb Ht Hf E)
    as (b1 & Hok & Hrem & H).
  destruct (skip_reading_lawful _ _ _ _ (br_read_small rd ok rem fr size Hsz L) (Z.of_nat (length (st_free s))) b1 Hok)
    as (b2 & Hs & Hok2 & Hrem2 & _); [lia|].
  rewrite skip_reading_small in Hs. rewrite Hrem in *.
  rewrite decide_True in Hs by (rewrite app_length; lia).
  rewrite (H _ _ _ Hs). exists b2. split; [done|]. split; [done|].
  by rewrite Hrem2, Nat2Z.id, drop_app_alt.
Qed.
