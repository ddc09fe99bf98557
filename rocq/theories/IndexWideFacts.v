(** Index files with any number of pairs. *)
From Verif Require Import Base GoIO Lock Index SpecFile SpecLock SpecIndex IndexSession GoIOFacts
  CodecFacts LockFacts IndexFacts.

(** The pairs an index file with [length l] pairs announces. *)
Definition counted (l : list (Z * Z)) : list (Z * Z) := take (Z.to_nat (u32 (Z.of_nat (length l)))) l.

Lemma counted_length l : Z.of_nat (length (counted l)) = u32 (Z.of_nat (length l)).
Proof.
  unfold counted. rewrite take_length. unfold u32.
  pose proof (Z.mod_pos_bound (Z.of_nat (length l)) (2 ^ 32) ltac:(lia)).
  pose proof (Z.mod_le (Z.of_nat (length l)) (2 ^ 32) ltac:(lia) ltac:(lia)). lia.
Qed.

Lemma counted_image v l tail : exists tail',
  index_image v l ++ tail = index_image v (counted l) ++ tail'.
Proof.
  exists (ipairs (drop (length (counted l)) l) ++ tail). rewrite !image_shape. do 4 f_equal.
  rewrite counted_length. change (u32 (Z.of_nat (length l))) with (Z.of_nat (length l) mod 256 ^ Z.of_nat 4).
  rewrite be_enc_mod. f_equal. rewrite app_assoc. f_equal.
  rewrite <- (take_drop (length (counted l)) l) at 1. unfold ipairs. rewrite map_app, concat_app. do 3 f_equal.
  pose proof (counted_length l). unfold counted at 2. f_equal. lia.
Qed.

Lemma open_any bsz rsz c f l tail : (0 < rsz)%nat -> usable f -> Forall pair_typed l ->
  f_data f = index_image 0 l ++ tail ->
  exists f' s, i_open bsz rsz c f = (f', Ret s) /\ is_map s = imap ∅ (counted l) /\
    iinv (map (fun x => IvPut (fst x) (snd x)) (counted l)) s.
Proof.
  intros Hrsz Hu Ht Hd. destruct (counted_image 0 l tail) as [tail' E]. rewrite E in Hd.
  assert (Htc : Forall pair_typed (counted l)) by (unfold counted; by apply Forall_take).
  destruct (open_image_inv bsz rsz c f (counted l) tail') as (f1 & s1 & Eo & Hf & Hc & Hm & Hd1 & _ & Hh & Hs & _); try done.
  { rewrite counted_length. apply Z.mod_pos_bound. done. }
  exists f1, s1. split; [done|]. split; [done|]. constructor; rewrite ?Hf, ?Hm; try done.
  - rewrite Hd1, image_shape. eexists _, _. split; [|done]. apply be_enc_length.
  - intros id. apply imap_lookup.
  - apply imap_typed; [done|]. intros k v. by rewrite lookup_empty.
  - rewrite map_length. rewrite imap_size, map_size_empty. lia.
Qed.

Lemma isession_wide bsz rsz c h s : (0 < rsz)%nat -> isession bsz rsz c h s -> exists g, iinv g s.
Proof.
  intros Hrsz. induction 1 as [f f' s Hu Hd Ho|f f' s l tail Hu Ht Hd Ho|h s e _ IH Ht|h s sh s' f f' t _ IH Hcl Hu Hd Ho].
  - assert (isession bsz rsz c [] s) as Hs by (by eapply isession_new).
    destruct (session_inv bsz rsz c [] s Hrsz Hs) as [I _]; [cbn; lia|]. eauto.
  - destruct (open_any bsz rsz c f l tail Hrsz Hu Ht Hd) as (f1 & s1 & E & _ & I).
    rewrite E in Ho. injection Ho as -> ->. eauto.
  - destruct IH as [g I]. eexists. by apply call_inv.
  - destruct IH as [g I]. destruct (closed_image bsz sh g s I) as (s1 & tail & E & _ & _ & Hd1).
    rewrite E in Hcl. injection Hcl as <-.
    destruct (open_any bsz rsz c f (shuf sh (map_to_list (is_map s))) tail Hrsz Hu) as (f1 & s2 & E2 & _ & I2).
    + apply saved_typed, I.
    + congruence.
    + rewrite E2 in Ho. injection Ho as -> ->. eauto.
Qed.

(** The calls that store [n] different ids. *)
Definition puts (n : nat) : list ievent := map (fun k => IvPut (Z.of_nat k) 7) (seq 0 n).

Lemma puts_S n : puts (S n) = puts n ++ [IvPut (Z.of_nat n) 7].
Proof. unfold puts. rewrite seq_S, map_app. done. Qed.

Lemma puts_session bsz rsz c s n : isession bsz rsz c [] s -> is_map s = ∅ -> Z.of_nat n <= 2 ^ 64 ->
  isession bsz rsz c (puts n) (i_calls (puts n) s) /\ size (is_map (i_calls (puts n) s)) = n /\
  forall id, is_map (i_calls (puts n) s) !! id = if decide (0 <= id < Z.of_nat n) then Some 7 else None.
Proof.
  intros Hs Hm. induction n as [|n IH]; intros Hn.
  - split; [done|]. change (i_calls (puts 0) s) with s. rewrite Hm. split; [by rewrite map_size_empty|].
    intros id. rewrite lookup_empty. case_decide; [lia|done].
  - destruct IH as (IHs & IHz & IHl); [lia|]. rewrite puts_S.
    assert (E : forall l s, i_calls (l ++ [IvPut (Z.of_nat n) 7]) s = i_put (Z.of_nat n) 7 (i_calls l s)).
    { clear. intros l s. unfold i_calls. by rewrite fold_left_app. }
    rewrite E. split; [|split].
    + apply (isession_call bsz rsz c (puts n) _ (IvPut (Z.of_nat n) 7)); [done|]. unfold iv_typed, is_u64. lia.
    + cbn [i_put is_map]. rewrite map_size_insert, IHl, IHz. case_decide; [lia|]. done.
    + intros id. cbn [i_put is_map]. destruct (decide (id = Z.of_nat n)) as [->|Hne].
      * rewrite lookup_insert. case_decide; [done|lia].
      * rewrite lookup_insert_ne by done. rewrite IHl. repeat case_decide; try done; lia.
Qed.
