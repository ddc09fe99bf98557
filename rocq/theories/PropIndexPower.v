(** Property C109: a power failure loses nothing of an index that was closed. *)
From Verif Require Import Base GoIO Lock Index SpecFile SpecLock SpecCrash SpecIndex SpecPower IndexSession GoIOFacts
  CodecFacts LockFacts IndexFacts PowerFacts.

(** The file [f0] with the pairs [l0], all on disk, was opened and the calls [h] took
    the index to [s]. *)
Definition iworked (bsz rsz : nat) (c : bool) (f0 : file) (l0 : list (Z * Z)) (tail : list byte)
    (h : list ievent) (s : istore) : Prop :=
  usable f0 /\ Forall (fun x => is_u64 (fst x) /\ is_u64 (snd x)) l0 /\
  f_data f0 = index_image 0 l0 ++ tail /\ Forall iv_typed h /\ Z.of_nat (length l0 + length h) < 2 ^ 32 /\
  exists f1 s0, i_open bsz rsz c f0 = (f1, Ret s0) /\ s = i_calls h s0.

(** What the pairs [l0] of a file say. *)
Definition pairs_value (l0 : list (Z * Z)) (id : Z) : option Z :=
  index_value (map (fun x => IvPut (fst x) (snd x)) l0) id None.

Lemma iworked_inv bsz rsz c f0 l0 tail h s : (0 < rsz)%nat -> iworked bsz rsz c f0 l0 tail h s ->
  iinv (map (fun x => IvPut (fst x) (snd x)) l0 ++ h) s /\ is_closer s = c /\
  f_data (is_file s) = index_image 1 l0 ++ tail /\ f_log (is_file s) = f_log f0 ++ [WSet 7 1].
Proof.
  intros Hrsz (Hu & Ht & Hd & Hth & Hlen & f1 & s0 & Ho & ->).
  destruct (open_image_inv bsz rsz c f0 l0 tail) as (f1' & s1 & E & Hf & Hc & Hm & Hd1 & _ & Hh & Hsk & Hl1); [done|done|done|lia|done|].
  rewrite E in Ho. injection Ho as <- <-.
  assert (I0 : iinv (map (fun x => IvPut (fst x) (snd x)) l0) s1).
  { constructor; rewrite ?Hf, ?Hm; try done.
    + rewrite Hd1, image_shape. eexists _, _. split; [|done]. apply be_enc_length.
    + intros id. apply imap_lookup.
    + by apply imap_typed.
    + rewrite map_length. rewrite imap_size, map_size_empty. lia. }
  split; [by apply calls_inv|]. destruct (calls_file h s1) as [-> ->]. rewrite Hf. done.
Qed.

Lemma image_set v w l tail : replay [WSet 7 w] (index_image v l ++ tail) = index_image w l ++ tail.
Proof.
  change (replay [WSet 7 w] ?d) with (splice 7 [w] d). rewrite !image_shape.
  change (index_magic ++ 1 :: ?r) with ((index_magic ++ [1]) ++ r). by rewrite splice_prefix.
Qed.

(** An image to which nothing was written. *)
Lemma power_none B d log : power_image B (fun _ => 0%nat) 0 d log = d.
Proof.
  apply list_eq_same_length with (length d); [done|by rewrite power_length|].
  intros i x y Hi Hx Hy. rewrite power_lookup in Hx by done.
  change (replay (take 0 _) ?d) with d in Hx. rewrite Hy in Hx. cbn in Hx. congruence.
Qed.

(** An image of a file of which one byte was written. *)
Lemma power_one B blocks len d off b log : log = [WSet off b] -> (off < length d)%nat ->
  power_image B blocks len d log = d \/ power_image B blocks len d log = apply_wop d (WSet off b).
Proof.
  intros -> Hoff. set (p := power_image B blocks len d [WSet off b]).
  assert (Hr : forall j, replay (take j [WSet off b]) d = d \/ replay (take j [WSet off b]) d = apply_wop d (WSet off b)).
  { intros [|[|j]]; [by left|by right|by right]. }
  assert (Hsl : length (apply_wop d (WSet off b)) = length d) by (rewrite set_length; lia).
  assert (Hl : length p = length d).
  { unfold p. rewrite power_length. by destruct (Hr len) as [-> | ->]. }
  assert (Hi : forall i, (i < length d)%nat -> p !! i = replay (take (blocks (i / B)%nat) [WSet off b]) d !! i).
  { intros i Hi. unfold p. rewrite power_lookup by (rewrite <- power_length with (B := B) (blocks := blocks); fold p; lia).
    destruct (lookup_lt_is_Some_2 (replay (take (blocks (i / B)%nat) [WSet off b]) d) i) as [x ->]; [|done].
    destruct (Hr (blocks (i / B)%nat)) as [-> | ->]; lia. }
  destruct (Hr (blocks (off / B)%nat)) as [Ho | Ho]; [left|right];
    (apply list_eq; intros i; destruct (decide (i < length d)%nat) as [Hid | Hid];
      [|rewrite !lookup_ge_None_2 by lia; done]; rewrite Hi by done;
     destruct (decide (i = off)) as [-> | Hne]; [by rewrite Ho|]).
  - destruct (Hr (blocks (i / B)%nat)) as [-> | ->]; [done|]. rewrite set_lookup by done. by rewrite decide_False.
  - rewrite set_lookup by done. rewrite decide_False by done.
    destruct (Hr (blocks (i / B)%nat)) as [-> | ->]; [done|]. rewrite set_lookup by done. by rewrite decide_False.
Qed.

Lemma open_old bsz rsz c g l0 tail : (0 < rsz)%nat -> usable g -> Forall pair_typed l0 ->
  Z.of_nat (length l0) < 2 ^ 32 -> f_data g = index_image 0 l0 ++ tail ->
  exists f' t, i_open bsz rsz c g = (f', Ret t) /\ forall id, i_get t id = pairs_value l0 id.
Proof.
  intros Hrsz Hu Ht Hl Hd.
  destruct (open_image_inv bsz rsz c g l0 tail) as (f' & t & E & _ & _ & Hm & _); [done..|].
  exists f', t. split; [done|]. intros id. unfold i_get. rewrite Hm. apply imap_lookup.
Qed.

(** What Close writes. *)
Lemma closed_written bsz rsz c f0 l0 tail h s sh s' : (0 < rsz)%nat -> iworked bsz rsz c f0 l0 tail h s ->
  i_close bsz sh s = (s', Ret tt) ->
  exists l, length l = size (is_map s) /\ Z.of_nat (length l) < 2 ^ 32 /\
    replay (written_by f0 (is_file s')) (f_data f0) = f_data (is_file s') /\
    f_data (is_file s') = index_image 0 l ++ drop (length (ipairs l)) (ipairs l0 ++ tail).
Proof.
  intros Hrsz W Hc. pose proof W as (Hu & Ht & Hd & Hth & Hlen & _).
  destruct (iworked_inv _ _ _ _ _ _ _ _ Hrsz W) as (I & Hcl & Hds & Hls).
  assert (Hsk : can_seek (is_file s) 6) by (apply (iinv_seek _ _ 6 I); lia).
  rewrite i_close_ok in Hc by (first [apply (ii_ok _ _ I) | exact Hsk]). injection Hc as <-.
  cbn [is_file]. set (l := shuf sh (map_to_list (is_map s))). exists l.
  assert (Hll : length l = size (is_map s)) by apply saved_length.
  split; [done|]. split; [rewrite Hll; pose proof (ii_size _ _ I) as Hz; rewrite app_length, map_length in Hz; lia|].
  unfold written_by. rewrite close_if_log, close_if_data, isaved_log, Hls, <- !app_assoc, drop_app_alt by done.
  assert (Hsv : f_data (isaved_file (Z.of_nat (size (is_map s))) l (is_file s)) =
    index_image 0 l ++ drop (length (ipairs l)) (ipairs l0 ++ tail)).
  { rewrite image_shape in Hds. erewrite isaved_data; [|apply be_enc_length|exact Hds].
    rewrite image_shape, ipairs_length, Hll. unfold hdr0. by rewrite <- ?app_assoc. }
  split; [|done].
  rewrite replay_app, Hd, image_set, <- Hds.
  unfold isaved_file, ihdr_file. rewrite fput_replay. cbn [fset_pos f_pos f_data].
  rewrite fput_replay. cbn [fset_pos f_pos f_data]. by rewrite replay_app.
Qed.

(** * C109
    Full claim: an index of which Close has returned without an error can be opened
    after a power failure and has the pairs it had; and if the power fails while it is
    open, it has those that it was opened with, or the file is refused.
    What is true: the second half, and that the power failure changes no other byte of
    the file; also after the creation of the file, where Open gives the empty index or
    refuses the file. *)
Theorem C109_open_partial :
  forall bsz rsz c B blocks len f0 l0 tail h s (g : file), (0 < rsz)%nat ->
  iworked bsz rsz c f0 l0 tail h s -> usable g ->
  f_data g = power_image B blocks len (f_data f0) (written_by f0 (is_file s)) ->
  (f_data g = f_data f0 /\ exists f' t, i_open bsz rsz c g = (f', Ret t) /\ forall id, i_get t id = pairs_value l0 id) \/
  (f_data g = index_image 1 l0 ++ tail /\ exists f' e, i_open bsz rsz c g = (f', Err e) /\ f_data f' = f_data g).
Proof.
  intros bsz rsz c B blocks len f0 l0 tail h s g Hrsz W Hu Hg.
  pose proof W as (_ & Ht & Hd & _ & Hlen & _).
  destruct (iworked_inv _ _ _ _ _ _ _ _ Hrsz W) as (I & Hcl & Hds & Hls).
  assert (Hw : written_by f0 (is_file s) = [WSet 7 1]) by (unfold written_by; by rewrite Hls, drop_app_alt).
  destruct (power_one B blocks len (f_data f0) 7 1 _ Hw) as [E | E].
  { rewrite Hd, image_shape, app_length. cbn. lia. }
  - left. rewrite E in Hg. split; [done|]. apply (open_old _ _ _ _ _ tail); [done..|lia|by rewrite Hg, Hd].
  - right. rewrite E, Hd in Hg. change (apply_wop ?d ?o) with (replay [o] d) in Hg. rewrite image_set in Hg.
    split; [done|]. apply i_open_bad; [done|by apply usable_healthy|by rewrite Hg, image_shape|].
    right. right. exists 1. by rewrite Hg, image_shape.
Qed.
Print Assumptions C109_open_partial.

Theorem C109_created_partial :
  forall bsz rsz c B blocks len f0 f1 s0 h s (g : file), (0 < rsz)%nat ->
  usable f0 -> f_data f0 = [] -> i_open bsz rsz c f0 = (f1, Ret s0) -> s = i_calls h s0 -> usable g ->
  f_data g = power_image B blocks len (f_data f0) (written_by f0 (is_file s)) ->
  (exists f' t, i_open bsz rsz c g = (f', Ret t) /\ forall id, i_get t id = None) \/
  (exists f' e, i_open bsz rsz c g = (f', Err e) /\ f_data f' = f_data g).
Proof.
  intros bsz rsz c B blocks len f0 f1 s0 h s g Hrsz Hu0 Hd0 Ho -> Hu Hg.
  destruct (i_open_empty bsz rsz c f0 (usable_healthy _ Hu0) Hd0) as (log & -> & E). cbn zeta in E.
  assert (Hs0 : f_log (is_file s0) = f_log f0 ++ wsets 0 (index_image 1 [])) by (rewrite E in Ho; by inversion Ho).
  unfold written_by in Hg. rewrite (proj1 (calls_file h s0)), Hs0 in Hg.
  rewrite drop_app_alt, Hd0 in Hg by done.
  assert (Hr : forall j, replay (take j (wsets 0 (index_image 1 []))) [] = take j (index_image 1 [])).
  { intros j. rewrite wsets_take. rewrite replay_wsets by (right; cbn; lia). unfold splice. cbn [length Nat.sub zeros replicate].
    change (take 0 ([] ++ [])) with (@nil byte). rewrite drop_nil. apply app_nil_r. }
  assert (Hlen : length (f_data g) = Nat.min len 12).
  { rewrite Hg, power_length, Hr, take_length. done. }
  assert (Hx : forall i, (8 <= i < length (f_data g))%nat -> f_data g !! i = Some 0).
  { intros i Hi. rewrite Hg, power_lookup by (rewrite Hr, take_length; change (length (index_image 1 [])) with 12%nat; lia).
    rewrite Hr. f_equal. destruct (decide (i < blocks (i / B))%nat) as [Hj | Hj].
    - rewrite lookup_take by done. assert (Hc : i = 8%nat \/ i = 9%nat \/ i = 10%nat \/ i = 11%nat) by lia.
      by destruct Hc as [-> | [-> | [-> | ->]]].
    - by rewrite lookup_take_ge by lia. }
  destruct (decide (f_data g = [])) as [En | Hne].
  { left. destruct (i_open_empty bsz rsz c g (usable_healthy _ Hu) En) as (lg & _ & Eg). cbn zeta in Eg.
    eexists _, _. split; [exact Eg|]. intros id. unfold i_get. cbn [is_map]. apply lookup_empty. }
  destruct (decide (take 6 (f_data g) = index_magic)) as [Hm | Hm].
  2: { right. apply i_open_bad; [done|by apply usable_healthy|done|by left]. }
  destruct (decide (length (f_data g) < 12)%nat) as [Hs | Hs].
  { right. apply i_open_bad; [done|by apply usable_healthy|done|by right; left]. }
  destruct (f_data g !! 7%nat) as [x|] eqn:H7; [|apply lookup_ge_None in H7; lia].
  destruct (decide (x = 0)) as [-> | Hx0].
  2: { right. apply i_open_bad; [done|by apply usable_healthy|done|right; right; by exists x]. }
  left. destruct (f_data g !! 6%nat) as [v|] eqn:H6; [|apply lookup_ge_None in H6; lia].
  assert (Hsh : f_data g = index_magic ++ v :: 0 :: [0; 0; 0; 0] ++ []).
  { rewrite <- (take_drop 6 (f_data g)), Hm. f_equal.
    rewrite (drop_S _ v) by done. f_equal. rewrite (drop_S _ 0) by done. f_equal.
    apply list_eq_same_length with 4%nat; [done|rewrite drop_length; lia|].
    intros i y z Hi Hy Hz. rewrite lookup_drop, Hx in Hy by lia.
    destruct i as [|[|[|[|i]]]]; cbn in Hz; try lia; congruence. }
  destruct (i_open_none bsz rsz c g v [0;0;0;0] [] Hrsz (usable_healthy _ Hu) eq_refl Hsh eq_refl) as (f' & t & Eo & Ht).
  exists f', t. split; [done|]. intros id. unfold i_get. by rewrite Ht, lookup_empty.
Qed.
Print Assumptions C109_created_partial.

(** The first half is false in three ways, however the index was used.

    (1) Nothing of what was written need be there, as nothing is forced to disk: then
    the index has the pairs it was opened with. *)
Theorem C109_lost_refuted :
  forall bsz rsz c B f0 l0 tail h s sh s' (g : file), (0 < rsz)%nat ->
  iworked bsz rsz c f0 l0 tail h s -> i_close bsz sh s = (s', Ret tt) -> usable g ->
  f_data g = power_image B (fun _ => 0%nat) 0 (f_data f0) (written_by f0 (is_file s')) ->
  exists f' t, i_open bsz rsz c g = (f', Ret t) /\ forall id, i_get t id = pairs_value l0 id.
Proof.
  intros bsz rsz c B f0 l0 tail h s sh s' g Hrsz (_ & Ht & Hd & _ & Hlen & _) _ Hu Hg.
  rewrite power_none in Hg. apply (open_old _ _ _ _ _ tail); [done..|lia|by rewrite Hg, Hd].
Qed.
Print Assumptions C109_lost_refuted.

Lemma closed_header bsz rsz c f0 l0 tail h s sh s' B len (g : file) : (0 < rsz)%nat ->
  iworked bsz rsz c f0 l0 tail h s -> i_close bsz sh s = (s', Ret tt) -> (12 <= B)%nat ->
  let log := written_by f0 (is_file s') in
  f_data g = power_image B (fun b => if (b =? 0)%nat then length log else 0%nat) len (f_data f0) log ->
  (12 <= length (f_data g))%nat ->
  f_data g = index_magic ++ 1 :: 0 :: be_enc 4 (Z.of_nat (size (is_map s))) ++ drop 12 (f_data g) /\
  Z.of_nat (size (is_map s)) < 2 ^ 32.
Proof.
  intros Hrsz W Hc HB log Hg Hl.
  destruct (closed_written _ _ _ _ _ _ _ _ _ _ Hrsz W Hc) as (l & Hll & Hlb & Hrep & Hdat). fold log in Hrep.
  rewrite Hll in Hlb. split; [|done].
  set (hd := index_magic ++ 1 :: 0 :: be_enc 4 (Z.of_nat (size (is_map s)))).
  assert (Hhd : length hd = 12%nat) by (unfold hd; rewrite app_length; cbn [length]; rewrite be_enc_length; done).
  assert (Hdh : f_data (is_file s') = hd ++ drop 12 (f_data (is_file s'))).
  { rewrite Hdat, image_shape, Hll.
    change (index_magic ++ 1 :: 0 :: ?a ++ ?b) with ((index_magic ++ 1 :: 0 :: a) ++ b). fold hd.
    reflexivity. }
  assert (Hgd : f_data g = hd ++ drop 12 (f_data g)).
  { rewrite <- (take_drop 12 (f_data g)) at 1. f_equal.
    apply list_eq_same_length with 12%nat; [done|rewrite take_length; lia|].
    intros i x y Hi Hx Hy. rewrite lookup_take in Hx by done.
    rewrite Hg, power_length in Hl. rewrite Hg, power_lookup in Hx by lia.
    rewrite Nat.div_small in Hx by lia. cbn [Nat.eqb] in Hx.
    rewrite take_ge, Hrep, Hdh, lookup_app_l, Hy in Hx by lia. cbn in Hx. congruence. }
  rewrite Hgd at 1. unfold hd. by rewrite <- app_assoc.
Qed.

(** (2) The file may be lost, with the pairs it had before.  If of what was written only
    the first block is on disk, it announces pairs that are not there: it is refused,
    and as Open has set the lock it is refused from then on. *)
Theorem C109_closed_refuted :
  forall bsz rsz c B f0 l0 tail h s sh s' (g : file), (0 < rsz)%nat ->
  iworked bsz rsz c f0 l0 tail h s -> i_close bsz sh s = (s', Ret tt) ->
  (length (f_data f0) < length (f_data (is_file s')))%nat -> (12 <= B)%nat -> usable g ->
  let log := written_by f0 (is_file s') in
  f_data g = power_image B (fun b => if (b =? 0)%nat then length log else 0%nat) 0 (f_data f0) log ->
  exists f' e, i_open bsz rsz c g = (f', Err e) /\
    forall g', usable g' -> f_data g' = f_data f' ->
      exists f'' e', i_open bsz rsz c g' = (f'', Err e') /\ f_data f'' = f_data g'.
Proof.
  intros bsz rsz c B f0 l0 tail h s sh s' g Hrsz W Hc Hgr HB Hu log Hg.
  assert (Hlg : length (f_data g) = length (f_data f0)) by (rewrite Hg, power_length; done).
  assert (Hl0 : (12 <= length (f_data f0))%nat).
  { destruct W as (_ & _ & -> & _). rewrite image_shape, app_length. cbn [length]. rewrite app_length, be_enc_length. cbn. lia. }
  destruct (closed_header _ _ _ _ _ _ _ _ _ _ B 0 g Hrsz W Hc HB Hg) as [Hsh Hsz]; [lia|].
  destruct (closed_written _ _ _ _ _ _ _ _ _ _ Hrsz W Hc) as (l & Hll & Hlb & Hrep & Hdat).
  assert (Hshort : (length (drop 12 (f_data g)) < 16 * size (is_map s))%nat).
  { assert (Hls : length (f_data (is_file s')) = Nat.max (12 + 16 * size (is_map s)) (length (f_data f0))).
    { rewrite Hdat. destruct W as (_ & _ & -> & _). rewrite !image_shape, !app_length. cbn [length].
      rewrite !app_length, drop_length, !app_length, !be_enc_length, !ipairs_length, Hll. cbn. lia. }
    rewrite drop_length. lia. }
  destruct (i_open_unlocked bsz rsz c g 1 _ _ Hrsz (usable_healthy _ Hu) (be_enc_length _ _) Hsh) as (p & Hp & Ho).
  cbn zeta in Ho. rewrite be_dec_enc, Nat2Z.id in Ho by (change (256 ^ Z.of_nat 4) with (2 ^ 32); lia).
  destruct (iload_entries_short _ ∅ _ Hshort) as (l' & e & E). rewrite E in Ho. cbn [snd] in Ho.
  destruct Ho as (e' & ->). eexists _, e'. split; [done|]. intros g' Hu' Hd'. rewrite close_if_data in Hd'. cbn [f_data] in Hd'.
  apply i_open_bad; [done|by apply usable_healthy|by rewrite Hd'|]. right. right. exists 1. by rewrite Hd'.
Qed.
Print Assumptions C109_closed_refuted.

Lemma load_zeros n : forall a m, length a = (16 * n)%nat ->
  exists m', i_load_entries lread (S n) m (a ++ zeros 16) = ([], Ret (<[0 := 0]> m')).
Proof.
  induction n as [|n IH]; intros a m Ha.
  - destruct a; [|done]. cbn [app i_load_entries].
    change (zeros 16) with (ipair (0, 0) ++ []). unfold iobind, iomaperr.
    rewrite iread_entry_app by (unfold is_u64; lia). by exists m.
  - cbn [i_load_entries]. unfold iobind at 1, iomaperr.
    destruct (iread_entry_long (a ++ zeros 16)) as [e E]; [rewrite app_length; lia|]. rewrite E.
    rewrite drop_app_le by lia. apply (IH (drop 16 a)). rewrite drop_length. lia.
Qed.

(** (3) The index can have a pair that nobody put there.  If the file has grown by a
    pair or more and of what was written only the first block and the length are on
    disk, the id 0 has the value 0. *)
Theorem C109_invented_refuted :
  forall bsz rsz c B f0 l0 tail h s sh s' (g : file), (0 < rsz)%nat ->
  iworked bsz rsz c f0 l0 tail h s -> i_close bsz sh s = (s', Ret tt) ->
  (length (f_data f0) + 16 <= length (f_data (is_file s')))%nat -> (12 <= B <= length (f_data f0))%nat -> usable g ->
  let log := written_by f0 (is_file s') in
  f_data g = power_image B (fun b => if (b =? 0)%nat then length log else 0%nat) (length log) (f_data f0) log ->
  exists f' t, i_open bsz rsz c g = (f', Ret t) /\ i_get t 0 = Some 0.
Proof.
  intros bsz rsz c B f0 l0 tail h s sh s' g Hrsz W Hc Hgr [HB HB'] Hu log Hg.
  destruct (closed_written _ _ _ _ _ _ _ _ _ _ Hrsz W Hc) as (l & Hll & Hlb & Hrep & Hdat). fold log in Hrep.
  assert (Hls : length (f_data (is_file s')) = Nat.max (12 + 16 * size (is_map s)) (length (f_data f0))).
  { rewrite Hdat. destruct W as (_ & _ & -> & _). rewrite !image_shape, !app_length. cbn [length].
    rewrite !app_length, drop_length, !app_length, !be_enc_length, !ipairs_length, Hll. cbn. lia. }
  assert (Hlg : length (f_data g) = (12 + 16 * size (is_map s))%nat).
  { rewrite Hg, power_length, take_ge, Hrep by done. lia. }
  destruct (closed_header _ _ _ _ _ _ _ _ _ _ B _ g Hrsz W Hc HB Hg) as [Hsh Hsz]; [lia|].
  destruct (size (is_map s)) as [|n] eqn:En; [lia|].
  assert (Hbody : drop 12 (f_data g) = take (16 * n) (drop 12 (f_data g)) ++ zeros 16).
  { rewrite <- (take_drop (16 * n) (drop 12 (f_data g))) at 1. f_equal. rewrite drop_drop.
    apply list_eq_same_length with 16%nat; [done|rewrite drop_length; lia|].
    intros i x y Hi Hx Hy. unfold zeros in Hy. apply lookup_replicate in Hy as [-> _].
    rewrite lookup_drop, Hg in Hx. rewrite Hg, power_length in Hlg. rewrite power_lookup in Hx by lia.
    assert (Hq : ((12 + 16 * n + i) / B =? 0)%nat = false).
    { apply Nat.eqb_neq. intros E. apply Nat.div_small_iff in E; lia. }
    rewrite Hq in Hx. change (replay (take 0 _) ?d) with d in Hx.
    rewrite lookup_ge_None_2 in Hx by lia. cbn in Hx. congruence. }
  destruct (i_open_unlocked bsz rsz c g 1 _ _ Hrsz (usable_healthy _ Hu) (be_enc_length _ _) Hsh) as (p & Hp & Ho).
  cbn zeta in Ho. rewrite be_dec_enc, Nat2Z.id in Ho by (change (256 ^ Z.of_nat 4) with (2 ^ 32); lia).
  destruct (load_zeros n (take (16 * n) (drop 12 (f_data g))) ∅) as [m' Em].
  { rewrite take_length, drop_length. lia. }
  rewrite <- Hbody in Em. rewrite Em in Ho. cbn [snd] in Ho. eexists _, _. split; [exact Ho|].
  unfold i_get. cbn [is_map]. apply lookup_insert.
Qed.
Print Assumptions C109_invented_refuted.

Definition as_listed : index_order := Shuffle _ (fun l => l) (fun l => reflexivity l).

(** An index of one pair gets two more and is closed, with blocks of 16 bytes: the three
    outcomes. *)
Example C109_case :
  let f0 := open_file KOs (index_image 0 [(1, 10)]) in
  exists s s', iworked 16 16 true f0 [(1, 10)] [] [IvPut 2 20; IvPut 3 30] s /\
    i_close 16 as_listed s = (s', Ret tt) /\
    let log := written_by f0 (is_file s') in
    let first := fun b => if (b =? 0)%nat then length log else 0%nat in
    match i_open 16 16 true (open_file KOs (power_image 16 (fun _ => 0%nat) 0 (f_data f0) log)) with
    | (_, Ret t) => i_get t 1 = Some 10 /\ i_get t 2 = None
    | _ => False
    end /\
    match i_open 16 16 true (open_file KOs (power_image 16 first 0 (f_data f0) log)) with
    | (_, Err _) => True
    | _ => False
    end /\
    match i_open 16 16 true (open_file KOs (power_image 16 first (length log) (f_data f0) log)) with
    | (_, Ret t) => i_get t 1 = Some 10 /\ i_get t 2 = None /\ i_get t 3 = None /\ i_get t 0 = Some 0
    | _ => False
    end.
Proof.
  cbn zeta.
  destruct (i_open 16 16 true (open_file KOs (index_image 0 [(1, 10)]))) as [f1 o1] eqn:E1.
  assert (H1 : exists s0, o1 = Ret s0) by (vm_compute in E1; injection E1 as _ <-; eauto). destruct H1 as [s0 ->].
  set (s := i_calls [IvPut 2 20; IvPut 3 30] s0).
  destruct (i_close 16 as_listed s) as [s' o2] eqn:E2.
  assert (H2 : o2 = Ret tt).
  { unfold s in E2. vm_compute in E1. injection E1 as <- <-. vm_compute in E2. by injection E2 as _ <-. }
  subst o2. exists s, s'. split.
  { assert (Hn : forall n, 0 <= n < 256 -> is_u64 n) by (unfold is_u64; lia).
    split; [by repeat split; left|].
    split; [constructor; [split; apply Hn; cbn; lia|constructor]|]. split; [reflexivity|].
    split; [constructor; [split; apply Hn; lia|constructor; [split; apply Hn; lia|constructor]]|].
    split; [cbn; lia|]. exists f1, s0. split; [exact E1|reflexivity]. }
  split; [exact E2|].
  unfold s in E2. clear s. vm_compute in E1. injection E1 as <- <-. vm_compute in E2. injection E2 as <-.
  split; [by vm_compute|]. split; by vm_compute.
Qed.
