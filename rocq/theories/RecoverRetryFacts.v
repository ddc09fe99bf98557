(** What a recovery that reports an error leaves behind. *)
From Verif Require Import Base GoIO Lock Delta SpecDelta SpecCrash GoIOFacts FileBufferFacts LockFacts CodecFacts
  DeltaFacts DeltaRecoverFacts DeltaStoreFacts DeltaCrashFacts DeltaRecCrashFacts RecoverFaultFacts.

Lemma fwrite_fails bs f f1 n e : (f_pos f <= length (f_data f))%nat -> fwrite bs f = (f1, (n, Some e)) ->
  exists k, f_data f1 = splice (f_pos f) (take k bs) (f_data f).
Proof.
  intros Hp. unfold fwrite. destruct (f_closed f).
  { intros [= <- _ _]. exists 0%nat. rewrite take_0. by rewrite splice_nil. }
  unfold next_fault. destruct (f_env f) as [|[|k] env]; [done|done|].
  intros E. exists k. apply (f_equal fst) in E. cbn [fst] in E. rewrite <- E. by rewrite fput_data.
Qed.

(** A copy that fails has written some beginning. *)
Lemma copy_loop_fails csz : (0 < csz)%nat ->
  forall fuel written t f t' f' e, healthy t -> (f_pos f <= length (f_data f))%nat ->
  copy_loop fread fwrite csz fuel written (t, f) = ((t', f'), Err e) ->
  exists j, f_data f' = splice (f_pos f) (take j (frem t)) (f_data f).
Proof.
  intros Hc. induction fuel as [|fuel IH]; intros written t f t' f' e Ht Hp; [done|].
  cbn [copy_loop fst snd].
  destruct (decide (frem t = [])) as [Hnil|Hne].
  - destruct (lawful_eof _ _ _ _ fread_lawful csz t Ht) as (t1 & -> & _); [done|done|]. done.
  - destruct (lawful_some _ _ _ _ fread_lawful csz t Ht) as (t1 & bs & -> & Hok & Hbs & Hlen & Hrem & _); [done|done|].
    destruct bs as [|b bs]; [done|].
    destruct (fwrite_cases (b :: bs) f) as [(f1 & -> & Ec & Ed & Ep & Ek & Ecl)|(f1 & k & e' & Ew)].
    + rewrite Nat.eqb_refl. cbn [negb]. intros E.
      rewrite fput_data in Ed by done. rewrite fput_pos in Ep.
      apply IH in E as (j & Ej); [|done|].
      2: { rewrite Ep, Ed, splice_length. lia. }
      exists (length (b :: bs) + j)%nat. rewrite Ej, Ep, Ed, Hrem, firstn_app_2. by rewrite <- splice_app.
    + rewrite Ew. intros E. apply (f_equal (fun x => snd (fst x))) in E. cbn [fst snd] in E. subst f'.
      destruct (fwrite_fails _ _ _ _ _ Hp Ew) as (k' & E).
      exists (Nat.min k' (length (b :: bs))). rewrite E, Hrem, take_app_le by lia.
      f_equal. rewrite <- (firstn_all (b :: bs)) at 1. apply take_take.
Qed.

Lemma d_recover_fails csz f f' e : (0 < csz)%nat -> f_closed f = false ->
  Forall is_byte (frem f) -> Z.of_nat (length (frem f)) < 2 ^ 32 * 18 ->
  d_recover csz f = (f', Err e) ->
  exists k out j, (k <= length (frem f))%nat /\ recovers_to (take k (frem f)) out /\ (j <= length out)%nat /\
    f_data f' = take j out ++ drop j (f_data f).
Proof.
  intros Hc Hcl Hb Hl. unfold d_recover.
  destruct (recover_to_mirror (S (length (f_data f))) f (open_file KBuf []))
    as (k & f1 & tmp & o & x & Lk & (S1 & S2 & S3) & -> & E2).
  destruct (recovers_exists (take k (frem f))) as [out Hout].
  destruct (recover_to_ok lread _ _ _ lread_lawful KBuf (S (length (f_data f))) (take k (frem f)) out)
    as (x' & tmp' & E3 & _ & _ & Ht & Hk & Hd); [done|by apply Forall_take| | |done|].
  { rewrite take_length. unfold frem. rewrite drop_length. lia. }
  { rewrite take_length. lia. }
  rewrite E3 in E2. injection E2 as <- <- <-.
  intros E. exists k, out.
  enough (exists j, f_data f' = splice 0 (take j out) (f_data f)) as (j & Ej).
  { exists (Nat.min j (length out)). split; [done|]. split; [done|]. split; [lia|].
    rewrite Ej. unfold splice. rewrite take_0, app_nil_l. cbn [Nat.add]. rewrite take_length. f_equal.
    destruct (decide (j <= length out)%nat); [by rewrite Nat.min_l by lia|].
    rewrite Nat.min_r by lia. rewrite !take_ge by lia. done. }
  revert E.
  unfold iobind at 1, on_fst at 1. unfold fseek at 1. rewrite S3, Hcl. cbv zeta.
  assert (B : (match f_kind f1 with KBuf => (0 <? 0) || (Z.of_nat (length (f_data f1)) <? 0) | KOs => 0 <? 0 end) = false).
  { destruct (f_kind f1); [|done]. apply orb_false_iff. split; [done|]. apply Z.ltb_ge. lia. }
  rewrite B. change (Z.to_nat 0) with 0%nat. clear B.
  unfold iobind at 1, on_snd at 1. change 0 with (Z.of_nat 0) at 1.
  rewrite fseek_start_nat; [|done|right; lia].
  unfold iobind at 1.
  assert (Er : frem (fset_pos 0 tmp') = out) by (unfold frem; cbn; by rewrite drop_0).
  destruct (copy_loop _ _ _ _ _ _) as [[t2 f2] [n|e1| |]] eqn:Ec; [| |done..].
  2: { apply copy_loop_fails in Ec as (j & Ej); [|done|done|cbn; lia].
       rewrite Er in Ej. cbn [fset_pos f_pos f_data] in Ej. intros E.
       apply (f_equal fst) in E. cbn [fst] in E. subst f'. exists j. by rewrite Ej, S1. }
  apply copy_loop_faulty in Ec as (-> & D2 & K2 & C2); [|done|done|cbn; lia].
  rewrite Er in *. rewrite Z.add_0_l. cbn [fset_pos f_pos f_data f_kind f_closed] in *.
  unfold iobind, on_fst, ftruncate. rewrite C2, S3, Hcl.
  assert (Nf : exists x r, next_fault f2 = (x, File (f_kind f2) (f_data f2) (f_pos f2) (f_closed f2) r (f_log f2))).
  { unfold next_fault. destruct (f_env f2) as [|y r] eqn:Ef; [|by exists y, r]. exists FOk, []. rewrite <- Ef. by destruct f2. }
  destruct Nf as (y & r & ->). destruct y as [|y].
  2: { intros E. apply (f_equal fst) in E. cbn [fst] in E. subst f'. cbn [f_data].
       exists (length out). by rewrite firstn_all, D2, S1. }
  cbn [f_kind f_data f_pos f_closed f_env f_log].
  rewrite C2, S3, Hcl.
  rewrite (proj2 (Z.ltb_ge _ 0)) by lia. rewrite Nat2Z.id.
  unfold fseek at 1. cbn [f_closed f_kind f_data f_pos].
  cbv zeta.
  match goal with |- context [if ?c then _ else _] => replace c with false end.
  2: { symmetry. destruct (f_kind f2); [|done]. apply orb_false_iff. split; [done|]. apply Z.ltb_ge. lia. }
  done.
Qed.

(** If the lock byte is still set, only the version byte can have changed. *)
Lemma retry_same d out0 out j y : take 8 d = delta_magic -> recovers_to out0 out -> (j <= length out)%nat ->
  (take j out ++ drop j d) !! 9%nat = Some y -> y <> 0 ->
  d !! 9%nat = Some y /\ (take j out ++ drop j d = d \/ take j out ++ drop j d = <[8%nat := 1]> d).
Proof.
  intros Hm Hr Hj Hy Hne.
  destruct (recovers_image _ _ Hr) as (rs & Hout & _).
  assert (Ho9 : take 9 out = delta_magic ++ [1]) by (by rewrite Hout).
  assert (Ho10 : out !! 9%nat = Some 0) by (by rewrite Hout).
  assert (Hl : (10 <= length out)%nat) by (apply lookup_lt_Some in Ho10; lia).
  assert (Hj9 : (j <= 9)%nat).
  { destruct (decide (j <= 9)%nat); [done|]. rewrite lookup_app_l in Hy by (rewrite take_length; lia).
    rewrite lookup_take, Ho10 in Hy by lia. by injection Hy as <-. }
  assert (Hd9 : d !! 9%nat = Some y).
  { rewrite lookup_app_r in Hy by (rewrite take_length; lia). rewrite take_length, Nat.min_l, lookup_drop in Hy by lia.
    rewrite <- Hy. f_equal. lia. }
  split; [done|].
  assert (Hdl : (10 <= length d)%nat) by (apply lookup_lt_Some in Hd9; lia).
  destruct (decide (j <= 8)%nat) as [H8 | H8].
  - left. rewrite <- (take_drop j d) at 2. f_equal.
    replace (take j out) with (take j (take 9 out)) by (rewrite take_take; f_equal; lia).
    replace (take j d) with (take j (take 8 d)) by (rewrite take_take; f_equal; lia).
    rewrite Ho9, Hm. apply take_app_le. done.
  - right. replace j with 9%nat by lia. rewrite Ho9.
    rewrite <- (take_drop 8 d) at 2. rewrite Hm.
    assert (Hd8 : (2 <= length (drop 8 d))%nat) by (rewrite drop_length; lia).
    replace (drop 9 d) with (drop 1 (drop 8 d)) by (by rewrite drop_drop).
    destruct (drop 8 d) as [|x l]; [cbn in Hd8; lia|]. done.
Qed.
