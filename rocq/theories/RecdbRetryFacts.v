(** Proofs about SetPrevious on a file whose writes may fail. *)
From Verif Require Import Base GoIO Lock Profile Recdb SpecFile SpecLock SpecRecdb RecdbSession
  GoIOFacts FaultyFacts CodecFacts LockFacts FileBufferFacts DeltaFacts RecdbFacts.

(** [m] writes [bs] to the file and returns [a], or fails after a part of [bs]. *)
Definition femits {A} (m : io file A) (bs : list byte) (a : A) : Prop :=
  forall f, f_closed f = false -> exists f', f_closed f' = false /\
    (m f = (f', Ret a) /\ quiet f' = fput bs (quiet f) \/
     exists e j, m f = (f', Err e) /\ (j <= length bs)%nat /\ quiet f' = fput (take j bs) (quiet f)).

Lemma femits_ret {A} (a : A) : femits (ioret a) [] a.
Proof. intros f Hc. exists f. split; [done|]. by left. Qed.

Lemma femits_bind {A B} (m : io file A) bs a (k : A -> io file B) cs b :
  femits m bs a -> femits (k a) cs b -> femits (iobind m k) (bs ++ cs) b.
Proof.
  intros Hm Hk f Hc. unfold iobind. destruct (Hm f Hc) as (f1 & Hc1 & [[-> Hq1] | (e & j & -> & Hj & Hq1)]).
  - destruct (Hk f1 Hc1) as (f2 & Hc2 & [[-> Hq2] | (e & j & -> & Hj & Hq2)]); exists f2; (split; [done|]).
    + left. split; [done|]. by rewrite Hq2, Hq1, fput_app.
    + right. exists e, (length bs + j)%nat. split; [done|]. rewrite app_length. split; [lia|].
      rewrite Hq2, Hq1, <- fput_app. f_equal. rewrite (take_app_ge bs) by lia. do 2 f_equal. lia.
  - exists f1. split; [done|]. right. exists e, j. split; [done|]. rewrite app_length. split; [lia|].
    by rewrite (take_app_le bs) by done.
Qed.

Lemma femits_maperr {A} g (m : io file A) bs a : femits m bs a -> femits (iomaperr g m) bs a.
Proof.
  intros Hm f Hc. unfold iomaperr. destruct (Hm f Hc) as (f1 & Hc1 & [[-> Hq1] | (e & j & -> & Hj & Hq1)]); exists f1.
  - split; [done|]. by left.
  - split; [done|]. right. by exists (g e), j.
Qed.

Lemma femits_write_all bs : femits (write_all fwrite bs) bs tt.
Proof.
  intros f Hc. unfold write_all. destruct (fwrite_faulty bs f Hc) as (f' & n & e & -> & Hc' & Hn & Hq & He).
  exists f'. split; [done|]. destruct e as [e|].
  - right. by exists e, n.
  - left. rewrite He, firstn_all in Hq by done. done.
Qed.

Lemma write_zeros_faulty : forall fuel size total f, f_closed f = false -> (size - total <= Z.of_nat fuel)%Z ->
  exists f', f_closed f' = false /\
    ((exists n, write_zeros_loop fwrite fuel size total f = (f', (n, None))) /\
       quiet f' = fput (zeros (Z.to_nat (size - total))) (quiet f) \/
     exists n e j, write_zeros_loop fwrite fuel size total f = (f', (n, Some e)) /\
       (j <= Z.to_nat (size - total))%nat /\ quiet f' = fput (zeros j) (quiet f)).
Proof.
  induction fuel as [|fuel IH]; intros size total f Hc Hf; cbn [write_zeros_loop].
  - rewrite (proj2 (Z.ltb_ge _ _)) by lia. exists f. split; [done|]. left.
    replace (Z.to_nat (size - total)) with 0%nat by lia. eauto.
  - destruct (total <? size)%Z eqn:E.
    + apply Z.ltb_lt in E. unfold chunk_size.
      destruct (fwrite_faulty (zeros (Z.to_nat (Z.min (size - total) 100))) f Hc) as (f1 & n & e & -> & Hc1 & Hn & Hq & He).
      rewrite zeros_length in Hn, He.
      assert (Ht : take n (zeros (Z.to_nat (Z.min (size - total) 100))) = zeros n).
      { replace (Z.to_nat (Z.min (size - total) 100)) with (n + (Z.to_nat (Z.min (size - total) 100) - n))%nat by lia.
        rewrite <- zeros_app. rewrite take_app_alt; [done|]. by rewrite zeros_length. }
      rewrite Ht in Hq. destruct e as [e|].
      * exists f1. split; [done|]. right. eexists _, e, n. split; [done|]. split; [lia|done].
      * specialize (He eq_refl).
        destruct (IH size (total + Z.of_nat n)%Z f1 Hc1) as (f2 & Hc2 & [[[m ->] Hq2] | (m & e & j & -> & Hj & Hq2)]); [lia| |].
        -- exists f2. split; [done|]. left. split; [eauto|]. rewrite Hq2, Hq, <- fput_app, zeros_app. do 2 f_equal. lia.
        -- exists f2. split; [done|]. right. exists m, e, (n + j)%nat. split; [done|]. split; [lia|].
           by rewrite Hq2, Hq, <- fput_app, zeros_app.
    + apply Z.ltb_ge in E. exists f. split; [done|]. left.
      replace (Z.to_nat (size - total)) with 0%nat by lia. eauto.
Qed.

Lemma femits_write_zeros size : femits (only_err (write_zeros fwrite size)) (zeros (Z.to_nat size)) tt.
Proof.
  intros f Hc. unfold only_err, write_zeros.
  destruct (write_zeros_faulty (Z.to_nat size) size 0 f Hc) as (f' & Hc' & H); [lia|].
  rewrite Z.sub_0_r in H. exists f'. split; [done|]. destruct H as [[[n ->] Hq] | (n & e & j & -> & Hj & Hq)].
  - by left.
  - right. exists e, j. split; [done|]. rewrite zeros_length. split; [done|].
    replace (zeros (Z.to_nat size)) with (zeros j ++ zeros (Z.to_nat size - j)) by (rewrite zeros_app; f_equal; lia).
    rewrite take_app_alt; [done|]. by rewrite zeros_length.
Qed.

Lemma femits_entry s : is_byte (st_deleted s) ->
  femits (r_write_entry fwrite (entry_of s)) (stored_bytes (padded s)) (st_cap s).
Proof.
  destruct s as [c d u l dl fr]. intros Hd. unfold padded. cbn [st_cap st_deleted st_user st_likes st_dislikes] in *.
  set (free := zeros _).
  apply femits_maperr. unfold stored_bytes. cbn [st_cap st_deleted st_free].
  change (entry_of (Stored c d u l dl fr)) with (entry_of (Stored c d u l dl free)).
  cbn [re_cap re_deleted entry_of st_cap st_deleted].
  change (be32 c) with (be_enc 4 c).
  rewrite <- (be_enc_1 d) by done.
  eapply femits_bind; [apply femits_write_all|].
  eapply femits_bind; [apply femits_write_all|].
  eapply (femits_bind _ _ (like_size (Profile u l dl))).
  { unfold r_write_entry_data, stored_data. cbn [entry_of re_data st_user st_likes st_dislikes p_user p_likes p_dislikes].
    rewrite !counted_enc. change (be64 u) with (be_enc 8 u). rewrite <- !app_assoc.
    assert (M : forall n, be_enc 4 n = be_enc 4 (u32 n)).
    { intros n. rewrite <- (be_enc_mod 4 n). by rewrite pow256_4. }
    rewrite (M (Z.of_nat (length l))), (M (Z.of_nat (length dl))).
    eapply femits_bind; [apply femits_write_all|].
    eapply femits_bind; [apply femits_write_all|].
    eapply femits_bind; [apply femits_write_all|].
    eapply femits_bind; [apply femits_write_all|].
    rewrite <- (app_nil_r (u64s dl)).
    eapply femits_bind; [apply femits_write_all|].
    apply (femits_ret (like_size (Profile u l dl))). }
  rewrite <- (app_nil_r free).
  eapply femits_bind; [|apply femits_ret].
  destruct (_ <? _)%Z eqn:E.
  - unfold free. apply femits_write_zeros.
  - apply Z.ltb_ge in E. unfold free. unfold entry_header_size in E.
    replace (Z.to_nat _) with 0%nat by lia. apply femits_ret.
Qed.

(** SetPrevious on an iterator whose file is open: it cannot seek, or writes at the place
    one capacity back. *)
Lemma set_previous_faulty s it : it_index it <> 0%Z -> re_cap (it_entry it) = st_cap s -> f_closed (it_file it) = false ->
  is_u32 (st_cap s) -> is_byte (st_deleted s) -> (f_pos (it_file it) <= length (f_data (it_file it)))%nat ->
  ((Z.of_nat (f_pos (it_file it)) < st_cap s)%Z /\
   exists it' e, r_set_previous (entry_of s) it = (it', Err e) /\ it_file it' = it_file it /\ it_index it' = it_index it /\
     it_entry it' = it_entry it) \/
  ((st_cap s <= Z.of_nat (f_pos (it_file it)))%Z /\
   let off := (f_pos (it_file it) - Z.to_nat (st_cap s))%nat in
   exists it', f_closed (it_file it') = false /\ it_index it' = it_index it /\ it_entry it' = it_entry it /\
     (r_set_previous (entry_of s) it = (it', Ret tt) /\
        quiet (it_file it') = fput (stored_bytes (padded s)) (fset_pos off (quiet (it_file it))) \/
      exists e j, f_env (it_file it) <> [] /\ r_set_previous (entry_of s) it = (it', Err e) /\ (j <= length (stored_bytes (padded s)))%nat /\
        quiet (it_file it') = fput (take j (stored_bytes (padded s))) (fset_pos off (quiet (it_file it))))).
Proof.
  intros Hi Hcap Hc Hu Hde Hp. unfold is_u32 in Hu.
  destruct (decide (Z.of_nat (f_pos (it_file it)) < st_cap s)%Z) as [Hlt | Hge].
  - left. split; [done|].
    assert (Es : fseek (- st_cap s) SeekCurrent (it_file it) = (it_file it, Err EInvalid)).
    { unfold fseek. rewrite Hc. rewrite (proj2 (Z.ltb_lt _ 0)) by lia. cbn [orb]. by destruct (f_kind _). }
    unfold r_set_previous. rewrite (proj2 (Z.eqb_neq _ _)) by done. cbn [re_cap entry_of].
    rewrite Hcap, Z.eqb_refl. cbn [negb]. unfold iobind at 1. unfold iomaperr at 1. rewrite Es.
    eexists _, _. split; [reflexivity|]. done.
  - right. split; [lia|]. cbv zeta. set (off := (f_pos (it_file it) - Z.to_nat (st_cap s))%nat).
    assert (Es : fseek (- st_cap s) SeekCurrent (it_file it) = (fset_pos off (it_file it), Ret (Z.of_nat off))).
    { unfold fseek. rewrite Hc.
      replace (Z.of_nat (f_pos (it_file it)) + - st_cap s)%Z with (Z.of_nat off) by (unfold off; lia).
      rewrite Nat2Z.id. rewrite (proj2 (Z.ltb_ge _ _)) by lia. cbn [orb].
      rewrite (proj2 (Z.ltb_ge (Z.of_nat (length _)) _)) by (unfold off; lia). by destruct (f_kind _). }
    destruct (femits_entry s Hde (fset_pos off (it_file it)) Hc) as (f' & Hc' & H).
    assert (E : forall r, r_write_entry fwrite (entry_of s) (fset_pos off (it_file it)) = (f', r) ->
      r_set_previous (entry_of s) it =
      match r with
      | Ret n => if negb (u32 n =? st_cap s)%Z
                 then (Iter (it_header it) (BReader f' (br_buf (it_reader it)) (br_err (it_reader it))) (it_index it) (it_entry it),
                       Err (EMsg "expected to write %d bytes, written %d"))
                 else (Iter (it_header it) (new_breader f') (it_index it) (it_entry it), Ret tt)
      | Err _ => (Iter (it_header it) (BReader f' (br_buf (it_reader it)) (br_err (it_reader it))) (it_index it) (it_entry it),
                  Err (EMsg "failed to SetPrevious"))
      | Panic => (Iter (it_header it) (BReader f' (br_buf (it_reader it)) (br_err (it_reader it))) (it_index it) (it_entry it), Panic)
      | Hang => (Iter (it_header it) (BReader f' (br_buf (it_reader it)) (br_err (it_reader it))) (it_index it) (it_entry it), Hang)
      end).
    { intros r Er. unfold r_set_previous. rewrite (proj2 (Z.eqb_neq _ _)) by done. cbn [re_cap entry_of].
      rewrite Hcap, Z.eqb_refl. cbn [negb]. unfold iobind at 1. unfold iomaperr at 1. rewrite Es.
      unfold iobind at 1. unfold iomaperr at 1. rewrite Er. destruct r as [n|e| |]; [|done|done|done].
      by destruct (negb _). }
    destruct H as [[Er Hq] | (e & j & Er & Hj & Hq)]; specialize (E _ Er); cbv beta iota in E.
    + unfold u32 in E. rewrite Z.mod_small, Z.eqb_refl in E by lia. cbn [negb] in E.
      eexists. split; [|split; [|split; [|left; split; [exact E|exact Hq]]]]; done.
    + assert (Hn : f_env (it_file it) <> []).
      { intros He. destruct (emits_entry fwrite healthy (fun f => f) s fwrite_lawful Hde (fset_pos off (it_file it)))
          as (f2 & E2 & _); [by split|]. rewrite Er in E2. discriminate. }
      eexists. split; [|split; [|split; [|right; exists (EMsg "failed to SetPrevious"), j; split; [exact Hn|split; [exact E|split; [exact Hj|exact Hq]]]]]]; done.
Qed.

(** The first write fails and writes nothing. *)
Lemma set_previous_refused s it env : it_index it <> 0%Z -> re_cap (it_entry it) = st_cap s ->
  f_closed (it_file it) = false -> f_env (it_file it) = FErr 0 :: env ->
  is_u32 (st_cap s) -> (st_cap s <= Z.of_nat (f_pos (it_file it)))%Z ->
  (f_pos (it_file it) <= length (f_data (it_file it)))%nat ->
  let off := (f_pos (it_file it) - Z.to_nat (st_cap s))%nat in
  exists it' e, r_set_previous (entry_of s) it = (it', Err e) /\ f_closed (it_file it') = false /\
    it_index it' = it_index it /\ it_entry it' = it_entry it /\
    quiet (it_file it') = fset_pos off (quiet (it_file it)).
Proof.
  intros Hi Hcap Hc He Hu Hle Hp off. unfold is_u32 in Hu.
  assert (Es : fseek (- st_cap s) SeekCurrent (it_file it) = (fset_pos off (it_file it), Ret (Z.of_nat off))).
  { unfold fseek. rewrite Hc.
    replace (Z.of_nat (f_pos (it_file it)) + - st_cap s)%Z with (Z.of_nat off) by (unfold off; lia).
    rewrite Nat2Z.id. rewrite (proj2 (Z.ltb_ge _ _)) by lia. cbn [orb].
    rewrite (proj2 (Z.ltb_ge (Z.of_nat (length _)) _)) by (unfold off; lia). by destruct (f_kind _). }
  unfold r_set_previous. rewrite (proj2 (Z.eqb_neq _ _)) by done. cbn [re_cap entry_of].
  rewrite Hcap, Z.eqb_refl. cbn [negb]. unfold iobind at 1. unfold iomaperr at 1. rewrite Es.
  unfold iobind at 1. unfold iomaperr at 1. unfold r_write_entry at 1. unfold iomaperr at 1. unfold iobind at 1.
  unfold write_uint at 1. unfold write_all at 1. unfold fwrite at 1. cbn [fset_pos f_closed]. rewrite Hc.
  unfold next_fault. cbn [fset_pos f_env]. rewrite He. cbv beta iota zeta. cbn [take fput length].
  eexists _, _. split; [reflexivity|]. unfold it_file at 1 2. cbn [it_reader br_r it_index it_entry f_closed f_kind f_data f_pos f_log].
  split; [done|]. split; [done|]. split; [done|]. done.
Qed.
