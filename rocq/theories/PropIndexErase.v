(** Property C124: what is removed from an index disappears from its file
    (internal/infra/index/storage.go). *)
From Verif Require Import Base GoIO Index SpecFile SpecLock SpecIndex IndexSession GoIOFacts CodecFacts IndexFacts.

(** * C124

    The 16 bytes of the [k]-th pair of an index file. *)
Definition slot (d : list byte) (k : nat) : list byte := take 16 (drop (12 + 16 * k) d).

Definition erase_file : file := open_file KOs (index_image 0 [(1, 10); (2, 20)]).
Definition erase_order : index_order := Shuffle _ (fun l : list (Z * Z) => l) (fun l => reflexivity l).
Definition erase_open : istore :=
  match i_open 16 16 true erase_file with (_, Ret s) => s | (f, _) => IStore ∅ f true end.
Definition erase_store : istore := i_call (IvRemove 2) erase_open.

Lemma erase_session : isession 16 16 true [IvPut 1 10; IvPut 2 20; IvRemove 2] erase_store.
Proof.
  apply (isession_call 16 16 true [IvPut 1 10; IvPut 2 20] erase_open (IvRemove 2)); [|done].
  apply (isession_image 16 16 true erase_file (fst (i_open 16 16 true erase_file)) erase_open [(1, 10); (2, 20)] []).
  - split; [done|split; [done|by left]].
  - repeat (apply Forall_cons; split; [done|]). done.
  - by rewrite app_nil_r.
  - by vm_compute.
Qed.

(** The claim: after Close every pair in the file is one of the index. *)
Theorem C124_removed_is_erased_refuted :
  ~ (forall bsz rsz c h s sh s', (0 < rsz)%nat -> isession bsz rsz c h s -> Z.of_nat (length h) < 2 ^ 32 ->
     i_close bsz sh s = (s', Ret tt) ->
     forall k id v, is_u64 id -> is_u64 v -> slot (f_data (is_file s')) k = index_pair (id, v) -> i_get s id = Some v).
Proof.
  intros H. destruct (i_close 16 erase_order erase_store) as [s' o] eqn:E.
  assert (o = Ret tt) as -> by (by apply (f_equal snd) in E; vm_compute in E; subst o).
  apply (H 16%nat 16%nat true _ _ erase_order s' ltac:(lia) erase_session eq_refl) with (k := 1%nat) (id := 2) (v := 20) in E as Hg.
  - by vm_compute in Hg.
  - unfold is_u64. lia.
  - unfold is_u64. lia.
  - apply (f_equal fst) in E. cbn [fst] in E. rewrite <- E. by vm_compute.
Qed.
Print Assumptions C124_removed_is_erased_refuted.

Lemma close_bytes bsz sh h s : iinv h s ->
  exists s', i_close bsz sh s = (s', Ret tt) /\
    f_data (is_file s') = index_image 0 (shuf sh (map_to_list (is_map s))) ++
      drop (12 + 16 * length (shuf sh (map_to_list (is_map s)))) (f_data (is_file s)).
Proof.
  intros I. destruct (closed_image bsz sh h s I) as (s1 & _ & E & _ & Hf1 & _).
  destruct (ii_data _ _ I) as (cnt & rest & Hcn & Hd). exists s1. split; [done|].
  rewrite Hf1, close_if_data, (isaved_data _ _ _ _ _ rest cnt Hcn Hd), index_image_enc, saved_length. unfold hdr0.
  rewrite <- !app_assoc. do 4 f_equal. rewrite Hd.
  change (drop (12 + ?n) (index_magic ++ 1 :: 1 :: cnt ++ rest)) with (drop (4 + n) (cnt ++ rest)).
  rewrite <- drop_drop, drop_app_alt by done. done.
Qed.

(** The true part: Close writes the pairs of the index over the beginning of the file and
    keeps the bytes behind them. *)
Theorem C124_close_partial :
  forall bsz rsz c h s sh, (0 < rsz)%nat -> isession bsz rsz c h s -> Z.of_nat (length h) < 2 ^ 32 ->
  exists s' l, i_close bsz sh s = (s', Ret tt) /\ NoDup (map fst l) /\
    (forall id v, (id, v) ∈ l <-> i_get s id = Some v) /\
    f_data (is_file s') = index_image 0 l ++ drop (12 + 16 * length l) (f_data (is_file s)).
Proof.
  intros bsz rsz c h s sh Hrsz Hs Hl. destruct (session_inv bsz rsz c h s Hrsz Hs Hl) as [I Hc].
  destruct (close_bytes bsz sh h s I) as (s1 & E & Hd).
  exists s1, (shuf sh (map_to_list (is_map s))). split; [done|]. split; [|split; [|done]].
  - rewrite (shuf_perm sh). apply NoDup_fst_map_to_list.
  - intros id v. rewrite (shuf_perm sh). apply elem_of_map_to_list.
Qed.
Print Assumptions C124_close_partial.

Lemma pair_inj id v x : is_u64 id -> is_u64 v -> pair_typed x -> index_pair x = index_pair (id, v) -> x = (id, v).
Proof.
  intros Hid Hv [Ha Hb] H. destruct x as [a b]. unfold index_pair in H. cbn [fst snd] in *.
  apply app_inj_1 in H as [H1 H2]; [|done]. unfold is_u64 in *.
  apply (f_equal be_dec) in H1, H2. change be64 with (be_enc 8) in *.
  rewrite !be_dec_enc in H1, H2 by (change (256 ^ Z.of_nat 8) with (2 ^ 64); lia). by subst.
Qed.

Lemma slot_image l k id v : Forall pair_typed l -> is_u64 id -> is_u64 v ->
  slot (index_image 0 l) k = index_pair (id, v) -> (id, v) ∈ l.
Proof.
  intros Ht Hid Hv. unfold slot. rewrite index_image_enc.
  rewrite <- drop_drop. change (drop 12 (index_magic ++ [1; 0] ++ ?c ++ ?r)) with (drop 4 (c ++ r)).
  rewrite (drop_app_alt (be_enc 4 (Z.of_nat (length l)))) by (by rewrite be_enc_length).
  revert k. induction Ht as [|x l Hx Ht IH]; intros k H.
  - exfalso. unfold ipairs in H. cbn [map concat] in H. rewrite drop_nil, take_nil in H. discriminate H.
  - change (ipairs (x :: l)) with (ipair x ++ ipairs l) in H. destruct k as [|k].
    + rewrite drop_0, take_app_alt in H by (by rewrite ipair_length).
      apply pair_inj in H; [|done..]. subst. by left.
    + right. apply (IH k). rewrite <- H. replace (16 * S k)%nat with (16 + 16 * k)%nat by lia.
      rewrite <- drop_drop, (drop_app_alt (ipair x)) by (by rewrite ipair_length). done.
Qed.

(** So nothing else is in the file if the index has at least as many pairs as the file
    had room for. *)
Theorem C124_not_shrunk_partial :
  forall bsz rsz c h s sh s', (0 < rsz)%nat -> isession bsz rsz c h s -> Z.of_nat (length h) < 2 ^ 32 ->
  i_close bsz sh s = (s', Ret tt) ->
  (length (f_data (is_file s)) <= 12 + 16 * size (is_map s))%nat ->
  forall k id v, is_u64 id -> is_u64 v -> slot (f_data (is_file s')) k = index_pair (id, v) -> i_get s id = Some v.
Proof.
  intros bsz rsz c h s sh s' Hrsz Hs Hl Hcl Hlen k id v Hid Hv Hslot.
  destruct (session_inv bsz rsz c h s Hrsz Hs Hl) as [I _].
  destruct (close_bytes bsz sh h s I) as (s1 & E & Hd). rewrite Hcl in E. injection E as <-.
  rewrite saved_length, drop_ge, app_nil_r in Hd by done. rewrite Hd in Hslot.
  apply slot_image in Hslot; [|by apply saved_typed, I|done|done].
  rewrite (shuf_perm sh) in Hslot. by apply elem_of_map_to_list in Hslot.
Qed.
Print Assumptions C124_not_shrunk_partial.

(** The index of the refutation: the removed pair stays behind the other one; a third
    pair put into it takes its place. *)
Example C124_case :
  let file s := f_data (is_file (fst (i_close 16 erase_order s))) in
  file erase_store = index_image 0 [(1, 10)] ++ index_pair (2, 20) /\
  file (i_call (IvPut 3 30) erase_store) = index_image 0 [(1, 10); (3, 30)].
Proof. by vm_compute. Qed.
