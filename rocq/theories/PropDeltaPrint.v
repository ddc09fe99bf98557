(** Delta storage, what goes to the standard output: C106. *)
From Verif Require Import Base GoIO Lock Delta SpecFile SpecLock SpecDelta DeltaFacts DeltaStoreFacts
  DeltaSession DeltaHistFacts DeltaWideFacts PropDeltaStore DeltaPrint DeltaPrintFacts.

(** What one Flush prints. *)
Definition flush_prints (addr : list byte) (bsz : nat) (sh : new_order) (s : dstore) : list byte :=
  snd (fst (d_flush_out addr bsz sh (s, []))).

Lemma flush_prints_eq addr bsz sh s : flush_prints addr bsz sh s = show_storage addr s.
Proof. unfold flush_prints, d_flush_out, on_fst. by destruct (d_flush bsz sh s). Qed.

(** False: every Flush prints the operations in memory. *)
Theorem C106_prints_no_data_refuted :
  ~ (forall addr bsz h s h' s' sh, session bsz h s -> session bsz h' s' -> length h = length h' ->
     flush_prints addr bsz sh s = flush_prints addr bsz sh s').
Proof.
  intros H. set (sh := Shuffle _ (fun l : list (Z * list item_delta) => l) (fun l => reflexivity l)).
  destruct (delta_sessions_exist 64 (open_file KOs []) [DAdd 43 1 10]) as (f' & s0 & s & Ho & Hc & Hs).
  { split; [done|]. split; [done|]. by left. } { done. } { by repeat (apply Forall_cons; split; [done|]). } { cbn. lia. }
  destruct (delta_sessions_exist 64 (open_file KOs []) [DAdd 43 1 11]) as (f2 & s02 & s2 & Ho2 & Hc2 & Hs2).
  { split; [done|]. split; [done|]. by left. } { done. } { by repeat (apply Forall_cons; split; [done|]). } { cbn. lia. }
  vm_compute in Ho; injection Ho as <- <-; vm_compute in Hc; injection Hc as <-.
  vm_compute in Ho2; injection Ho2 as <- <-; vm_compute in Hc2; injection Hc2 as <-.
  specialize (H [] 64%nat _ _ _ _ sh Hs Hs2 eq_refl). vm_compute in H. discriminate H.
Qed.
Print Assumptions C106_prints_no_data_refuted.

(** The text tells everything there is to know: two storages that print the same have
    the same answer to every question about a user and an item. *)
Theorem C106_prints_everything :
  forall addr addr' bsz h s h' s' sh sh', session bsz h s -> session bsz h' s' ->
  flush_prints addr bsz sh s = flush_prints addr' bsz sh' s' ->
  (forall user item, d_get s user item = d_get s' user item) /\
  d_user_count s = d_user_count s' /\ d_total_count s = d_total_count s'.
Proof.
  intros addr addr' bsz h s h' s' sh sh' Hs Hs' E. rewrite !flush_prints_eq in E.
  destruct (session_wide bsz h s Hs) as (E1 & X & W). destruct (session_wide bsz h' s' Hs') as (E2 & X' & W').
  destruct (wi_mem _ _ _ W) as (h0 & f0 & I). destruct (wi_mem _ _ _ W') as (h1 & f1 & I').
  destruct (inv_maps _ _ _ I) as [M1 M2]. destruct (inv_maps _ _ _ I') as [M3 M4].
  cbn [with_file ds_cache ds_new] in M1, M2, M3, M4.
  destruct (storage_read addr addr' s s' M1 M2 M3 M4 E) as [Ec En].
  split; [intros u i; unfold d_get; by rewrite Ec, En|]. split; [unfold d_user_count; by rewrite Ec, En|].
  unfold d_total_count. pose proof (di_total _ _ _ I) as Ht. pose proof (di_total _ _ _ I') as Ht'.
  pose proof (f_equal (fun m => length (pend m)) Ec) as Hp. cbn beta in Hp.
  pose proof (di_cache _ _ _ I) as Hc. pose proof (di_cache _ _ _ I') as Hc'.
  cbn [with_file ds_cache ds_new ds_total] in Ht, Ht', Hc, Hc'. rewrite Ht, Ht'.
  rewrite Hc, Hc' in Hp. unfold group in Hp. rewrite !pend_addto in Hp. rewrite En. lia.
Qed.
Print Assumptions C106_prints_everything.

(** Every Flush prints everything again, also when nothing is new: at least five bytes
    for each operation of the storage. *)
Theorem C106_prints_all_again :
  forall addr bsz h s shs, session bsz h s ->
  exists s' out, d_calls_out addr bsz (map DFlush shs) (s, []) = ((s', out), Ret tt) /\
    d_total_count s' = d_total_count s /\
    5 * d_total_count s * Z.of_nat (length shs) <= Z.of_nat (length out).
Proof.
  intros addr bsz h s shs Hs. destruct (session_wide bsz h s Hs) as (E & V & W). clear Hs.
  assert (Hgen : forall out, exists s' out', d_calls_out addr bsz (map DFlush shs) (s, out) = ((s', out'), Ret tt) /\
    d_total_count s' = d_total_count s /\
    Z.of_nat (length out) + 5 * d_total_count s * Z.of_nat (length shs) <= Z.of_nat (length out')).
  { revert E V s W. induction shs as [|sh shs IH]; intros E V s W out; cbn [map d_calls_out].
    - exists s, out. split; [done|]. split; [done|]. cbn [length]. lia.
    - unfold iobind. cbn [d_call_out]. unfold d_flush_out, on_fst.
      destruct (winv_flush bsz sh E V s W) as (s1 & H1 & W1 & _ & Ht). rewrite H1.
      destruct (IH _ _ s1 W1 (out ++ show_storage addr s)) as (s' & out' & H2 & H3 & H4).
      exists s', out'. split; [exact H2|]. unfold d_total_count in *. split; [congruence|].
      destruct (wi_mem _ _ _ W) as (h0 & f0 & I).
      pose proof (storage_length addr h0 V _ I : 5 * ds_total s <= Z.of_nat (length (show_storage addr s))) as Hlen.
      rewrite app_length in H4. rewrite Ht in H4. cbn [length]. lia. }
  destruct (Hgen []) as (s' & out & H1 & H2 & H3). exists s', out. cbn [length] in H3. split; [done|]. split; [done|]. lia.
Qed.
Print Assumptions C106_prints_all_again.

(** Add prints nothing, and printing does not influence the storage and its file. *)
Theorem C106_output_apart_partial :
  forall addr bsz cs s out,
  let '((s', out'), o) := d_calls_out addr bsz cs (s, out) in
  d_calls bsz cs s = (s', o) /\ (Forall (fun c => exists op u i, c = DAdd op u i) cs -> out' = out).
Proof.
  intros addr bsz cs. induction cs as [|c cs IH]; intros s out; [done|].
  cbn [d_calls_out d_calls]. unfold iobind. destruct c as [op u i|sh]; cbn [d_call_out d_call].
  - unfold on_fst. specialize (IH (d_add op u i s) out).
    destruct (d_calls_out addr bsz cs (d_add op u i s, out)) as [[s' out'] o]. destruct IH as [H1 H2].
    split; [done|]. intros H. apply Forall_cons in H as [_ H]. by apply H2.
  - unfold d_flush_out, on_fst. destruct (d_flush bsz sh s) as [s1 [[]|e| |]].
    + specialize (IH s1 (out ++ show_storage addr s)).
      destruct (d_calls_out addr bsz cs (s1, out ++ show_storage addr s)) as [[s' out'] o]. destruct IH as [H1 _].
      split; [done|]. intros H. apply Forall_cons in H as [(op & u & i & Hx) _]. done.
    + split; [done|]. intros H. apply Forall_cons in H as [(op & u & i & Hx) _]. done.
    + split; [done|]. intros H. apply Forall_cons in H as [(op & u & i & Hx) _]. done.
    + split; [done|]. intros H. apply Forall_cons in H as [(op & u & i & Hx) _]. done.
Qed.
Print Assumptions C106_output_apart_partial.

(** Operations of two users are added and flushed, and then others; maps are printed in
    the order of the users. *)
Example C106_case :
  let sh := Shuffle _ (fun l : list (Z * list item_delta) => l) (fun l => reflexivity l) in
  exists s, session 64 [EvAdd 43 9 3; EvAdd 43 7 10; EvAdd 45 7 120; EvFlush; EvAdd 43 6 2; EvAdd 43 5 1] s /\
    flush_prints (ascii_bytes "0xc00001 0xc00002") 64 sh s =
      ascii_bytes "&{map[7:[{10 43} {120 45}] 9:[{3 43}]] map[5:[{1 43}] 6:[{2 43}]] 5 2 0xc00001 0xc00002}" ++ [10].
Proof.
  cbn zeta. set (sh := Shuffle _ (fun l : list (Z * list item_delta) => l) (fun l => reflexivity l)).
  edestruct (delta_sessions_exist 64 (open_file KOs []) [DAdd 43 9 3; DAdd 43 7 10; DAdd 45 7 120; DFlush sh; DAdd 43 6 2; DAdd 43 5 1])
    as (f' & s0 & s & Ho & Hc & Hs).
  - split; [done|]. split; [done|]. by left.
  - done.
  - by repeat (apply Forall_cons; split; [done|]).
  - cbn. lia.
  - vm_compute in Ho; injection Ho as <- <-; vm_compute in Hc; injection Hc as <-.
    eexists. split; [exact Hs|]. by vm_compute.
Qed.
