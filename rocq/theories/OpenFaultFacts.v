(** Proofs about opening a delta or index file when calls on it may fail. *)
From Verif Require Import Base GoIO Lock Delta Index SpecFile SpecLock SpecDelta SpecIndex DeltaSession GoIOFacts
  CodecFacts LockFacts DeltaFacts DeltaStoreFacts IndexFacts FaultyFacts FlakyReadFacts IndexFaultFacts DeltaHonestFacts.

(** A file is determined by what it holds and how much of it is left to read. *)
Lemma same_rem a b : fframe a = fframe b -> frem a = frem b ->
  (f_pos a <= length (f_data a))%nat -> (f_pos b <= length (f_data b))%nat -> a = b.
Proof.
  intros Hf Hr Ha Hb. destruct a as [k d p c e l], b as [k' d' p' c' e' l'].
  unfold fframe, fset_pos in Hf. cbn in *. injection Hf as <- <- <- <- <-. f_equal.
  apply (f_equal length) in Hr. unfold frem in Hr. cbn in Hr. rewrite !drop_length in Hr. lia.
Qed.

Lemma quiet_frem f : frem (quiet f) = frem f.
Proof. done. Qed.

(** WriteLocked does what it does when nothing fails, or fails. *)
Lemma write_locked_flaky off b f : f_closed f = false -> (f_pos f <= length (f_data f))%nat -> (off < length (f_data f))%nat ->
  exists f', f_closed f' = false /\
    ((write_locked_at (Z.of_nat off) b f = (f', Ret tt) /\
      quiet f' = File (f_kind f) (splice off [lock_bit b] (f_data f)) (f_pos f) false [] (f_log f ++ [WSet off (lock_bit b)])) \/
     (exists e, write_locked_at (Z.of_nat off) b f = (f', Err e) /\
      (f_data f' = f_data f \/ f_data f' = splice off [lock_bit b] (f_data f)))).
Proof.
  intros Hc Hp Ho. unfold write_locked_at, iobind.
  assert (Hcur : fseek 0 SeekCurrent f = (f, Ret (Z.of_nat (f_pos f)))).
  { assert (Hp' : can_seek f (f_pos f)) by (by right).
    pose proof (seek_can f (f_pos f) Hc Hp') as Hx. unfold fseek in *. rewrite Hc in *. rewrite Z.add_0_r.
    rewrite Hx. f_equal. by destruct f. }
  rewrite Hcur. rewrite (seek_can f off Hc) by (right; lia). unfold write_all.
  change (if b then 1 else 0) with (lock_bit b).
  destruct (fwrite_faulty [lock_bit b] (fset_pos off f) Hc) as (f1 & n & e & -> & Hc1 & Hn & Hq & Hall).
  assert (Hd1 : f_data f1 = f_data (fput (take n [lock_bit b]) (fset_pos off (quiet f)))).
  { apply (f_equal f_data) in Hq. exact Hq. }
  destruct e as [e|].
  - exists f1. split; [done|]. right. exists e. split; [done|]. destruct n as [|n]; [by left|].
    right. rewrite Hd1. cbn [take]. rewrite take_nil. done.
  - rewrite (Hall eq_refl) in Hd1, Hq. cbn [length take] in Hd1, Hq.
    assert (Hd2 : f_data f1 = splice off [lock_bit b] (f_data f)) by exact Hd1.
    assert (Hp1 : can_seek f1 (f_pos f)) by (right; rewrite Hd2, splice_length; cbn [length]; lia).
    rewrite (seek_can f1 _ Hc1 Hp1). exists (fset_pos (f_pos f) f1). split; [exact Hc1|]. left. split; [done|].
    change (quiet (fset_pos (f_pos f) f1)) with (fset_pos (f_pos f) (quiet f1)). rewrite Hq.
    destruct f as [k d p c e l]. cbn in Hc. subst c. reflexivity.
Qed.

(** ** The delta file *)

Section maybe.
  Context {R F : Type} (rd : reader R) (ok : R -> Prop) (rem : R -> list byte) (fr : R -> F).
  Hypothesis L : flaky_reader rd ok rem fr.

  Lemma maybe_dprefix : maybe ok rem fr (d_read_prefix rd) (d_read_prefix lread).
  Proof.
    apply maybe_bind; [by apply maybe_read_full|]. intros bs.
    destruct (bool_decide _); [apply maybe_ret|apply maybe_fail].
  Qed.

  Lemma maybe_dheader : maybe ok rem fr (d_read_header rd) (d_read_header lread).
  Proof. apply maybe_bind; [by apply maybe_read_full|]. intros bs. apply maybe_ret. Qed.

  Lemma maybe_dentry : maybe ok rem fr (d_read_entry rd) (d_read_entry lread).
  Proof.
    unfold d_read_entry.
    repeat (apply maybe_bind; [by apply maybe_read_uint|]; intros ?). apply maybe_ret.
  Qed.

  Lemma maybe_load_entries n : forall c, maybe ok rem fr (load_entries rd n c) (load_entries lread n c).
  Proof.
    induction n as [|n IH]; intros c; cbn [load_entries]; [apply maybe_ret|].
    apply maybe_bind; [apply maybe_maperr, maybe_dentry|]. intros e. apply IH.
  Qed.

  Lemma maybe_dload : maybe ok rem fr (d_load rd) (d_load lread).
  Proof.
    unfold d_load. apply maybe_bind; [apply maybe_dprefix|]. intros [].
    apply maybe_bind; [apply maybe_dheader|]. intros h.
    destruct (negb _); [apply maybe_fail|].
    apply maybe_bind; [apply maybe_load_entries|]. intros c. apply maybe_ret.
  Qed.

  Lemma maybe_iprefix : maybe ok rem fr (i_read_prefix rd) (i_read_prefix lread).
  Proof.
    apply maybe_bind; [by apply maybe_read_full|]. intros bs.
    destruct (bool_decide _); [apply maybe_ret|apply maybe_fail].
  Qed.

  Lemma maybe_iheader : maybe ok rem fr (i_read_header rd) (i_read_header lread).
  Proof. apply maybe_bind; [by apply maybe_read_full|]. intros bs. apply maybe_ret. Qed.

  Lemma maybe_ientry : maybe ok rem fr (i_read_entry rd) (i_read_entry lread).
  Proof.
    unfold i_read_entry.
    repeat (apply maybe_bind; [by apply maybe_read_uint|]; intros ?). apply maybe_ret.
  Qed.

  Lemma maybe_ientries n : forall m, maybe ok rem fr (i_load_entries rd n m) (i_load_entries lread n m).
  Proof.
    induction n as [|n IH]; intros m; cbn [i_load_entries]; [apply maybe_ret|].
    apply maybe_bind; [apply maybe_maperr, maybe_ientry|]. intros e. apply IH.
  Qed.
End maybe.

Lemma fseek_end_any f : f_closed f = false ->
  fseek 0 SeekEnd f = (fset_pos (length (f_data f)) f, Ret (Z.of_nat (length (f_data f)))).
Proof.
  intros Hc. unfold fseek. rewrite Hc, Z.add_0_r, Nat2Z.id.
  destruct (f_kind f);
    rewrite ?(proj2 (Z.ltb_ge (Z.of_nat (length (f_data f))) 0)), ?Z.ltb_irrefl by lia; done.
Qed.

Lemma d_open_flaky f : f_closed f = false -> f_data f <> [] ->
  exists f' o, d_open f = (f', o) /\ f_closed f' = false /\
    ((exists t, o = Ret t /\ d_open (quiet f) = (quiet f', Ret (quiet_store t))) \/
     (exists e, o = Err e /\
       (f_data f' = f_data f \/ (14 <= length (f_data f))%nat /\ f_data f' = splice 9 [1] (f_data f)))).
Proof.
  intros Hc Hd. unfold d_open, iobind at 1. rewrite fseek_end_any by done.
  assert (Hn : (Z.of_nat (length (f_data f)) =? 0) = false).
  { apply Z.eqb_neq. destruct (f_data f); [done|]. cbn. lia. }
  rewrite Hn. unfold iobind at 1 2.
  change 0 with (Z.of_nat 0) at 1. rewrite seek_can; [|done|right; cbn; lia].
  set (f0 := fset_pos 0 _).
  destruct (maybe_dload fread fopen frem fkept fread_flaky f0) as (f1 & o1 & -> & [Hc1 Hp1] & Hfr & Ho).
  { split; [done|]. cbn. lia. }
  assert (Hk1 : fkept f1 = fkept f) by (by rewrite Hfr).
  destruct (fkept_fields _ _ Hk1) as (Hd1 & Hkind & _ & Hlog).
  destruct Ho as [[e ->] | ([c n] & -> & Hl)].
  { exists f1. eexists. split; [reflexivity|]. split; [done|]. right. eexists. split; [reflexivity|]. by left. }
  assert (Hf0 : frem f0 = f_data f) by (unfold frem; cbn; by rewrite drop_0).
  rewrite Hf0 in Hl.
  assert (Hlen : (14 <= length (f_data f))%nat).
  { destruct (decide (14 <= length (f_data f))%nat) as [|Hs]; [done|].
    destruct (d_load_bad (f_data f)) as (? & ? & Hbad); [right; left; lia|]. congruence. }
  unfold iobind at 1, iomaperr at 1, d_write_locked at 1. change delta_locked_offset with (Z.of_nat 9).
  destruct (write_locked_flaky 9 true f1) as (f2 & Hc2 & [[E2 Hq2] | (e & E2 & Hd2)]); [done|done|rewrite Hd1; lia| |].
  2:{ rewrite E2. exists f2. eexists. split; [reflexivity|]. split; [done|]. right. eexists. split; [reflexivity|].
      rewrite Hd1 in Hd2. destruct Hd2; [by left|by right]. }
  rewrite E2. exists f2. eexists. split; [reflexivity|]. split; [done|]. left. eexists. split; [reflexivity|].
  (* the same without failures *)
  assert (Hh : healthy (quiet f)) by (split; [exact Hc|done]).
  unfold iobind at 1. rewrite fseek_end by done. change (f_data (quiet f)) with (f_data f). rewrite Hn.
  unfold iobind at 1 2. change 0 with (Z.of_nat 0) at 1. rewrite fseek_start_nat; [|exact Hh|right; cbn; lia].
  set (q0 := fset_pos 0 _).
  destruct (follows_load fread reading_ok frem fframe fread_lawful_in q0) as (q1 & -> & [Hh1 Hpq1] & Hrem & Hfq).
  { split; [exact Hh|]. cbn. lia. }
  assert (Hq0 : frem q0 = f_data f) by (unfold frem; cbn; by rewrite drop_0).
  rewrite Hq0, Hl in *. cbn [fst snd] in *.
  assert (Eq : q1 = quiet f1).
  { apply same_rem; [|by rewrite quiet_frem|done|done].
    rewrite Hfq. unfold fkept in Hk1. by rewrite Hk1. }
  subst q1. unfold iobind at 1, iomaperr at 1, d_write_locked at 1. change delta_locked_offset with (Z.of_nat 9).
  rewrite write_locked_ok; [|exact Hh1|by right|right; change (f_data (quiet f1)) with (f_data f1); rewrite Hd1; lia].
  cbn [fst snd]. unfold quiet_store. cbn [ds_cache ds_new ds_total ds_unflushed ds_file]. rewrite Hq2. done.
Qed.

(** ** The index file *)

Lemma i_load_flaky rsz f l tail : (0 < rsz)%nat -> f_closed f = false -> Forall pair_typed l ->
  Z.of_nat (length l) < 2 ^ 32 -> f_data f = index_image 0 l ++ tail ->
  exists f' o, i_load rsz f = (f', o) /\ f_closed f' = false /\
    ((o = Ret (imap ∅ l) /\ f_data f' = index_image 1 l ++ tail /\ f_kind f' = f_kind f /\
      (f_pos f' <= length (f_data f'))%nat /\ f_log f' = f_log f ++ [WSet 7 1]) \/
     (exists e, o = Err e /\ (f_data f' = f_data f \/ f_data f' = index_image 1 l ++ tail))).
Proof.
  intros Hrsz Hc Ht Hn Hd. rewrite image_shape in Hd. rewrite (image_shape 1).
  set (cnt := be_enc 4 (Z.of_nat (length l))) in *. set (body := ipairs l ++ tail) in *.
  assert (Hcnt : length cnt = 4%nat) by apply be_enc_length.
  pose proof (br_read_flaky fread _ _ _ rsz Hrsz fread_flaky) as L.
  unfold i_load, iobind at 1. change 0 with (Z.of_nat 0) at 1. rewrite seek_can; [|done|right; lia].
  unfold with_breader. set (b0 := new_breader _).
  assert (Hb0 : br_any fopen b0) by (split; [done|cbn; lia]).
  assert (Hrem0 : br_rem frem b0 = f_data f) by (unfold br_rem, frem; cbn; by rewrite drop_0).
  assert (Hkeep : forall b, br_frame fkept b = br_frame fkept b0 ->
    f_data (br_r b) = f_data f /\ f_kind (br_r b) = f_kind f /\ f_closed (br_r b) = false /\ f_log (br_r b) = f_log f).
  { intros b Hb. assert (Hk : fkept (br_r b) = fkept f) by (unfold br_frame in Hb; by rewrite Hb).
    destruct (fkept_fields _ _ Hk) as (? & ? & ? & ?). by rewrite <- Hc. }
  unfold iobind at 1, iomaperr at 1.
  destruct (maybe_iprefix _ _ _ _ L b0 Hb0) as (b1 & o1 & E1 & Hb1 & Hfr1 & Ho1). rewrite E1.
  destruct (Hkeep b1 Hfr1) as (Hd1 & _ & Hc1 & _).
  destruct Ho1 as [[e ->] | ([] & -> & R1)].
  { exists (br_r b1). eexists. split; [reflexivity|]. split; [done|]. right. eexists. split; [reflexivity|]. by left. }
  rewrite Hrem0, Hd, iread_prefix_ok in R1. apply (f_equal fst) in R1. cbn [fst] in R1.
  unfold iobind at 1, iomaperr at 1.
  destruct (maybe_iheader _ _ _ _ L b1 Hb1) as (b2 & o2 & E2 & Hb2 & Hfr2 & Ho2). rewrite E2.
  destruct (Hkeep b2) as (Hd2 & Hk2 & Hc2 & Hl2); [congruence|].
  destruct Ho2 as [[e ->] | (h & -> & R2)].
  { exists (br_r b2). eexists. split; [reflexivity|]. split; [done|]. right. eexists. split; [reflexivity|]. by left. }
  rewrite <- R1, iread_header_app in R2 by done.
  pose proof (f_equal fst R2) as Hrem2. cbn [fst] in Hrem2. apply (f_equal snd) in R2. cbn [snd] in R2. injection R2 as <-.
  cbn [ih_locked ih_count]. change (negb (0 =? 0)) with false. cbv iota.
  assert (Hlen : length (f_data f) = (12 + length body)%nat).
  { rewrite Hd. rewrite app_length. cbn [length]. rewrite app_length, Hcnt. cbn. lia. }
  destruct Hb2 as [_ Hp2]. set (p2 := f_pos (br_r b2)) in *. rewrite Hd2 in Hp2.
  assert (Hp12 : (12 <= p2)%nat).
  { pose proof (f_equal length Hrem2) as Hx. unfold br_rem, frem in Hx. fold p2 in Hx.
    rewrite app_length, drop_length, Hd2 in Hx. lia. }
  unfold iobind at 1, iomaperr at 1, under_reader.
  change i_write_locked with (write_locked_at (Z.of_nat 7)).
  assert (Hsp : splice 7 [1] (f_data f) = index_magic ++ 1 :: 1 :: cnt ++ body) by (rewrite Hd; done).
  destruct (write_locked_flaky 7 true (br_r b2)) as (f3 & Hc3 & [[E3 Hq3] | (e & E3 & Hd3)]);
    [done|rewrite Hd2; exact Hp2|rewrite Hd2; lia| |].
  2:{ rewrite E3. exists f3. eexists. split; [reflexivity|]. split; [done|]. right. eexists. split; [reflexivity|].
      rewrite Hd2 in Hd3. change (lock_bit true) with 1 in Hd3. rewrite Hsp in Hd3. exact Hd3. }
  rewrite E3. rewrite Hd2 in Hq3. change (lock_bit true) with 1 in Hq3. rewrite Hsp in Hq3. fold p2 in Hq3.
  assert (Hd3 : f_data f3 = index_magic ++ 1 :: 1 :: cnt ++ body) by apply (f_equal f_data Hq3).
  assert (Hp3 : f_pos f3 = p2) by apply (f_equal f_pos Hq3).
  assert (Hk3 : f_kind f3 = f_kind f) by (rewrite <- Hk2; apply (f_equal f_kind Hq3)).
  assert (Hl3 : f_log f3 = f_log f ++ [WSet 7 1]) by (rewrite <- Hl2; apply (f_equal f_log Hq3)).
  set (b3 := BReader f3 (br_buf b2) (br_err b2)).
  assert (Hb3 : br_any fopen b3).
  { split; [done|]. cbn [b3 br_r]. rewrite Hp3, Hd3, app_length. cbn [length]. rewrite app_length.
    rewrite Hlen in Hp2. cbn. lia. }
  assert (Hrem3 : br_rem frem b3 = body).
  { rewrite Hrem2. unfold br_rem, frem. cbn [b3 br_buf br_r]. f_equal. rewrite Hd3, Hd2, Hd, Hp3.
    fold p2. replace p2 with (8 + (p2 - 8))%nat by lia. by rewrite <- !drop_drop. }
  assert (Hcn : Z.to_nat (be_dec cnt) = length l).
  { unfold cnt. rewrite be_dec_enc by (rewrite pow256_4; lia). lia. }
  rewrite Hcn.
  destruct (maybe_ientries _ _ _ _ L (length l) ∅ b3 Hb3) as (b4 & o4 & E4 & [Hc4 Hp4] & Hfr4 & Ho4). rewrite E4.
  unfold br_frame in Hfr4. destruct (fkept_fields _ _ Hfr4) as (Hd4 & Hk4 & _ & Hl4). cbn [b3 br_r] in Hd4, Hk4, Hl4.
  exists (br_r b4). eexists. split; [reflexivity|]. split; [done|].
  destruct Ho4 as [[e ->] | (m & -> & R4)].
  { right. eexists. split; [reflexivity|]. right. congruence. }
  rewrite Hrem3 in R4. unfold body in R4. rewrite iload_entries_app in R4 by done.
  apply (f_equal snd) in R4. cbn [snd] in R4. injection R4 as <-.
  left. split; [done|]. split; [congruence|]. split; [congruence|]. split; [exact Hp4|]. congruence.
Qed.

Lemma i_open_flaky bsz rsz c f l tail : (0 < rsz)%nat -> f_closed f = false -> Forall pair_typed l ->
  Z.of_nat (length l) < 2 ^ 32 -> f_data f = index_image 0 l ++ tail ->
  exists f' o, i_open bsz rsz c f = (f', o) /\
    ((o = Ret (IStore (imap ∅ l) f' c) /\ f_closed f' = false /\ f_data f' = index_image 1 l ++ tail /\
      f_kind f' = f_kind f /\ (f_pos f' <= length (f_data f'))%nat /\ f_log f' = f_log f ++ [WSet 7 1]) \/
     (exists e, o = Err e /\ (c = true -> f_closed f' = true) /\
        (f_data f' = f_data f \/ f_data f' = index_image 1 l ++ tail))).
Proof.
  intros Hrsz Hc Ht Hn Hd. unfold i_open, iobind at 1, closing at 1. rewrite fseek_end_any by done.
  assert (Hlt : (0 <? Z.of_nat (length (f_data f))) = true).
  { apply Z.ltb_lt. rewrite Hd, image_shape, app_length. cbn. lia. }
  rewrite Hlt. unfold iobind at 1, closing at 1, iomaperr at 1.
  destruct (i_load_flaky rsz (fset_pos (length (f_data f)) f) l tail Hrsz) as (f1 & o1 & E1 & Hc1 & [(-> & H) | (e & -> & H)]);
    [done|done|done|done| |].
  - rewrite E1. exists f1. eexists. split; [reflexivity|]. left. split; [done|]. split; [done|]. exact H.
  - rewrite E1. eexists. eexists. split; [reflexivity|]. right. eexists. split; [reflexivity|]. split.
    + intros ->. cbn [close_if]. by apply fclose_closes.
    + rewrite close_if_data. exact H.
Qed.

(** ** IsLocked *)

Lemma is_locked_flaky off x f : f_closed f = false -> can_seek f (f_pos f) -> f_data f !! off = Some x ->
  exists f', fkept f' = fkept f /\
    (is_locked_at (Z.of_nat off) f = (f', Ret (negb (x =? 0))) \/
     exists e, is_locked_at (Z.of_nat off) f = (f', Err e)).
Proof.
  intros Hc Hp Hx. pose proof (lookup_lt_Some _ _ _ Hx) as Hlt. unfold is_locked_at, iobind.
  assert (Hcur : fseek 0 SeekCurrent f = (f, Ret (Z.of_nat (f_pos f)))).
  { pose proof (seek_can f (f_pos f) Hc Hp) as Hs. unfold fseek in *. rewrite Hc in *. rewrite Z.add_0_r.
    rewrite Hs. f_equal. by destruct f. }
  rewrite Hcur. rewrite (seek_can f off Hc) by (right; lia). unfold read_one.
  destruct (fread_flaky 1%nat (fset_pos off f)) as (f1 & bs & e & -> & [Hc1 _] & Hl & Hrem & Hk & He);
    [split; [done|cbn; lia]|lia|].
  destruct e as [e|].
  { exists f1. split; [done|]. right. eauto. }
  assert (Hk1 : fkept f1 = fkept f) by exact Hk. destruct (fkept_fields _ _ Hk1) as (Hd1 & Hkd & _).
  assert (Hp1 : can_seek f1 (f_pos f)).
  { destruct Hp as [Hp | Hp]; [left; congruence|right; by rewrite Hd1]. }
  rewrite (seek_can f1 _ Hc1 Hp1).
  assert (Hb : default 0 (head bs) = x).
  { specialize (He eq_refl). destruct bs as [|b bs]; [done|].
    unfold frem in Hrem. cbn [fset_pos f_pos f_data] in Hrem. rewrite (drop_S _ _ _ Hx) in Hrem. cbn in Hrem.
    by injection Hrem as <-. }
  rewrite Hb. exists (fset_pos (f_pos f) f1). split; [done|]. by left.
Qed.

(** OpenMaybeRecover of an unlocked file. *)
Lemma open_maybe_flaky csz f : f_closed f = false -> can_seek f (f_pos f) -> f_data f !! 9%nat = Some 0 ->
  exists f' o, d_open_maybe_recover csz f = (f', o) /\
    ((exists t, o = Ret t /\ exists f1, fkept f1 = fkept f /\ d_open f1 = (f', Ret t)) \/
     (exists e, o = Err e /\
       (f_data f' = f_data f \/ (14 <= length (f_data f))%nat /\ f_data f' = splice 9 [1] (f_data f)))).
Proof.
  intros Hc Hp Hx. unfold d_open_maybe_recover, iobind at 1, iomaperr at 1, d_is_locked.
  change delta_locked_offset with (Z.of_nat 9).
  destruct (is_locked_flaky 9 0 f Hc Hp Hx) as (f1 & Hk & [E | (e & E)]); rewrite E;
    destruct (fkept_fields _ _ Hk) as (Hd1 & _ & Hc1 & _).
  2:{ eexists _, _. split; [reflexivity|]. right. eexists. split; [reflexivity|]. by left. }
  change (negb (0 =? 0)) with false. cbv iota. unfold iobind, ioret.
  destruct (d_open_flaky f1) as (f2 & o & E2 & _ & H).
  { by rewrite Hc1. } { rewrite Hd1. by destruct (f_data f). }
  rewrite E2. destruct H as [(t & -> & _) | (e & -> & H)].
  - eexists _, _. split; [reflexivity|]. left. eexists. split; [reflexivity|]. by exists f1.
  - eexists _, _. split; [reflexivity|]. right. eexists. split; [reflexivity|]. rewrite fclose_data. by rewrite Hd1 in H.
Qed.
