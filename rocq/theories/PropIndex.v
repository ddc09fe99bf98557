(** Index storage: C17 (index), C31-C33, C59. *)
From Verif Require Import Base GoIO Lock Index SpecFile SpecLock SpecCrash SpecIndex IndexSession GoIOFacts
  CodecFacts LockFacts FileBufferFacts DeltaStoreFacts IndexFacts PropIO.

(** * C17, index *)
Theorem C17_index_lock_flag : lock_flag_ok 7 i_write_locked i_is_locked.
Proof. apply (lock_flag_at 7). Qed.
Print Assumptions C17_index_lock_flag.

Example C17_index_case :
  let f := File KOs (index_image 1 [(5, 6)]) 3 false [] [] in
  usable f /\ i_is_locked f = (f, Ret true) /\
  f_data (fst (i_write_locked false f)) = index_image 0 [(5, 6)].
Proof. split; [split; [done|split; [done|by left]]|done]. Qed.

(** * C31 *)

(** Put and Remove, in any order, on any index. *)
Theorem C31_index_is_a_map :
  forall h s id, i_get (i_calls h s) id = index_value h id (i_get s id).
Proof.
  induction h as [|e h IH]; intros s id; [done|].
  cbn [i_calls fold_left]. change (fold_left _ h ?x) with (i_calls h x). rewrite IH.
  destruct e as [k v|k]; cbn [i_call index_value].
  - f_equal. unfold i_get, i_put. cbn [is_map]. destruct (k =? id) eqn:E.
    + apply Z.eqb_eq in E as ->. by rewrite lookup_insert.
    + apply Z.eqb_neq in E. by rewrite lookup_insert_ne.
  - f_equal. unfold i_get, i_remove. destruct (is_map s !! k) eqn:Ek; cbn [is_map]; destruct (k =? id) eqn:E.
    + apply Z.eqb_eq in E as ->. by rewrite lookup_delete.
    + apply Z.eqb_neq in E. by rewrite lookup_delete_ne.
    + by apply Z.eqb_eq in E as <-.
    + done.
Qed.
Print Assumptions C31_index_is_a_map.

(** Over the whole life of an index, through any number of reopenings. *)
Theorem C31_index_is_a_map_over_sessions :
  forall bsz rsz c h s id, (0 < rsz)%nat -> isession bsz rsz c h s -> Z.of_nat (length h) < 2 ^ 32 ->
  i_get s id = index_value h id None.
Proof.
  intros bsz rsz c h s id Hrsz Hs Hl. destruct (session_inv bsz rsz c h s Hrsz Hs Hl) as [I _]. apply I.
Qed.
Print Assumptions C31_index_is_a_map_over_sessions.

Example C31_case :
  let s := i_calls [IvPut 1 10; IvPut 2 20; IvPut 1 11; IvRemove 2; IvRemove 3] (IStore ∅ (open_file KOs []) true) in
  i_get s 1 = Some 11 /\ i_get s 2 = None /\ i_get s 3 = None.
Proof. by vm_compute. Qed.

(** * C32 *)
Theorem C32_close_and_reopen :
  forall bsz rsz c h s sh, (0 < rsz)%nat -> isession bsz rsz c h s -> Z.of_nat (length h) < 2 ^ 32 ->
  exists s' l tail, i_close bsz sh s = (s', Ret tt) /\
    (c = true -> f_closed (is_file s') = true) /\
    (** what the file holds *)
    f_data (is_file s') = index_image 0 l ++ tail /\
    NoDup (map fst l) /\
    (forall id v, (id, v) ∈ l <-> i_get s id = Some v) /\
    (** reopening it, with any buffers *)
    forall bsz' rsz' c' f, (0 < rsz')%nat -> usable f -> f_data f = f_data (is_file s') ->
    exists f' t, i_open bsz' rsz' c' f = (f', Ret t) /\ forall id, i_get t id = i_get s id.
Proof.
  intros bsz rsz c h s sh Hrsz Hs Hl. destruct (session_inv bsz rsz c h s Hrsz Hs Hl) as [I Hc].
  destruct (closed_image bsz sh h s I) as (s1 & tail & E & Hm1 & Hf1 & Hd1).
  exists s1, (shuf sh (map_to_list (is_map s))), tail. split; [done|]. split.
  { intros ->. rewrite Hf1, Hc. apply close_if_closed. }
  split; [done|]. split.
  { rewrite (shuf_perm sh). apply NoDup_fst_map_to_list. }
  split.
  { intros id v. rewrite (shuf_perm sh), elem_of_map_to_list. done. }
  intros bsz' rsz' c' f Hrsz' Hu Hd. rewrite Hd1 in Hd.
  destruct (open_image_inv bsz' rsz' c' f _ tail Hrsz' Hu (saved_typed sh _ (ii_typed _ _ I))) as (f' & t & Ho & _ & _ & Hm & _); [|done|].
  - rewrite saved_length. pose proof (ii_size _ _ I). lia.
  - exists f', t. split; [done|]. intros id. unfold i_get. by rewrite Hm, imap_saved.
Qed.
Print Assumptions C32_close_and_reopen.

(** Sessions exist: an empty file opens, and so does every well-formed one. *)
Theorem index_sessions_exist :
  forall bsz rsz c f h, (0 < rsz)%nat -> usable f -> f_data f = [] -> Forall iv_typed h ->
  exists f' s, i_open bsz rsz c f = (f', Ret s) /\ isession bsz rsz c h (i_calls h s).
Proof.
  intros bsz rsz c f h Hrsz Hu Hd Ht.
  destruct (i_open_empty bsz rsz c f (usable_healthy _ Hu) Hd) as (log & _ & E). cbn zeta in E.
  eexists _, _. split; [apply E|].
  assert (H0 : isession bsz rsz c [] (IStore ∅ (File (f_kind f) (index_image 1 []) 12 false [] log) c))
    by (by apply (isession_new _ _ _ f _ _ Hu Hd E)).
  revert H0. generalize (IStore ∅ (File (f_kind f) (index_image 1 []) 12 false [] log) c) as s.
  change h with ([] ++ h) at 1. generalize (@nil ievent) as g. clear E log.
  induction Ht as [|e h He _ IH]; intros g s Hs; [by rewrite app_nil_r|].
  cbn [i_calls fold_left]. replace (g ++ e :: h) with ((g ++ [e]) ++ h) by (by rewrite <- app_assoc).
  apply IH. by apply isession_call.
Qed.
Print Assumptions index_sessions_exist.

Theorem index_reopen_exists :
  forall bsz rsz c h s sh s' f, (0 < rsz)%nat -> isession bsz rsz c h s -> Z.of_nat (length h) < 2 ^ 32 ->
  i_close bsz sh s = (s', Ret tt) -> usable f -> f_data f = f_data (is_file s') ->
  exists f' t, i_open bsz rsz c f = (f', Ret t) /\ isession bsz rsz c h t.
Proof.
  intros bsz rsz c h s sh s' f Hrsz Hs Hl Hc Hu Hd.
  destruct (C32_close_and_reopen bsz rsz c h s sh Hrsz Hs Hl) as (s1 & l & tail & E & _ & _ & _ & _ & Hre).
  rewrite E in Hc. injection Hc as <-. destruct (Hre bsz rsz c f Hrsz Hu Hd) as (f' & t & Ho & _).
  exists f', t. split; [done|]. by eapply isession_reopen.
Qed.
Print Assumptions index_reopen_exists.

Example C32_case :
  let sh := Shuffle _ (fun l => l) (fun l => reflexivity l) in
  exists s s', isession 16 16 true [IvPut 1 10; IvPut 2 20; IvRemove 1] s /\
    i_close 16 sh s = (s', Ret tt) /\ f_data (is_file s') = index_image 0 [(2, 20)].
Proof.
  cbn zeta.
  destruct (index_sessions_exist 16 16 true (open_file KOs []) [IvPut 1 10; IvPut 2 20; IvRemove 1]) as (f' & s & Ho & Hs).
  - lia.
  - split; [done|]. split; [done|]. by left.
  - done.
  - repeat (apply Forall_cons; split; [done|]). done.
  - vm_compute in Ho. injection Ho as <- <-. eexists _, _. split; [apply Hs|]. split; vm_compute; reflexivity.
Qed.

(** * C33 *)

(** The index opened from a file holding the pairs [l0]; calls [h] are made, and the
    process dies during the following Close, after [j] bytes.  [f] is the file after
    the restart. *)
Definition crash_in_close bsz rsz (c : bool) l0 tail h (s0 s : istore) j (f : file) : Prop :=
  exists f0 f0' sh s',
    usable f0 /\ Forall (fun x => is_u64 (fst x) /\ is_u64 (snd x)) l0 /\
    f_data f0 = index_image 0 l0 ++ tail /\ i_open bsz rsz c f0 = (f0', Ret s0) /\
    Forall iv_typed h /\ Z.of_nat (length l0 + length h) < 2 ^ 32 /\
    s = i_calls h s0 /\ i_close bsz sh s = (s', Ret tt) /\
    usable f /\ f_data f = crash_image (is_file s) (is_file s') j.

(** A mixture can be loaded: the header with the new count is written before the
    entries. *)
Theorem C33_crash_in_close_refuted :
  ~ (forall bsz rsz c l0 tail h s0 s j f f' t, (0 < rsz)%nat ->
     crash_in_close bsz rsz c l0 tail h s0 s j f ->
     i_open bsz rsz c f = (f', Ret t) ->
     (forall id, i_get t id = i_get s0 id) \/ (forall id, i_get t id = i_get s id)).
Proof.
  intros H.
  set (sh := Shuffle _ (fun l : list (Z * Z) => l) (fun l => reflexivity l)).
  set (f0 := open_file KOs (index_image 0 [(1, 10); (2, 20)])).
  set (h := [IvRemove 1]).
  set (s0 := match i_open 16 16 true f0 with (_, Ret s) => s | _ => IStore ∅ f0 true end).
  set (s := i_calls h s0). set (s' := fst (i_close 16 sh s)).
  set (f := open_file KOs (crash_image (is_file s) (is_file s') 6)).
  set (t := match i_open 16 16 true f with (_, Ret s) => s | _ => IStore ∅ f0 true end).
  destruct (H 16%nat 16%nat true [(1, 10); (2, 20)] [] h s0 s 6%nat f (fst (i_open 16 16 true f)) t) as [Hx | Hx].
  - lia.
  - exists f0, (fst (i_open 16 16 true f0)), sh, s'.
    split; [split; [done|split; [done|by left]]|].
    split; [repeat (apply Forall_cons; split; [done|]); done|].
    split; [done|]. split; [by vm_compute|]. split; [by repeat (apply Forall_cons; split; [done|])|].
    split; [done|]. split; [done|]. split; [by vm_compute|].
    split; [split; [done|split; [done|by left]]|done].
  - by vm_compute.
  - specialize (Hx 2). by vm_compute in Hx.
  - specialize (Hx 1). by vm_compute in Hx.
Qed.
Print Assumptions C33_crash_in_close_refuted.

(** The true part: the file stays refused until the second byte of Close is written;
    at that point it holds the old map; after all of Close the new one. *)
Theorem C33_crash_in_close_partial :
  forall bsz rsz c l0 tail h s0 s j f, (0 < rsz)%nat ->
  crash_in_close bsz rsz c l0 tail h s0 s j f ->
  ((j <= 1)%nat -> exists f' e, i_open bsz rsz c f = (f', Err e) /\ f_data f' = f_data f) /\
  (j = 2%nat -> exists f' t, i_open bsz rsz c f = (f', Ret t) /\ forall id, i_get t id = i_get s0 id) /\
  ((6 + 16 * size (is_map s) <= j)%nat ->
   exists f' t, i_open bsz rsz c f = (f', Ret t) /\ forall id, i_get t id = i_get s id).
Proof.
  intros bsz rsz c l0 tail h s0 s j f Hrsz (f0 & f0' & sh & s' & Hu0 & Ht0 & Hd0 & Ho & Hth & Hlen & Hs & Hcl & Hu & Hd).
  destruct (open_image_inv bsz rsz c f0 l0 tail) as (f1 & s1 & E & Hf & Hc & Hm & Hd1 & _ & Hh & Hsk & _); [done|done|done|lia|done|].
  rewrite E in Ho. injection Ho as <- <-.
  assert (I0 : iinv (map (fun x => IvPut (fst x) (snd x)) l0) s1).
  { constructor; rewrite ?Hf, ?Hm; try done.
    + rewrite Hd1, image_shape. eexists _, _. split; [|done]. apply be_enc_length.
    + intros id. apply imap_lookup.
    + by apply imap_typed.
    + rewrite map_length. rewrite imap_size, map_size_empty. lia. }
  pose proof (calls_inv h _ s1 I0 Hth) as I. rewrite <- Hs in I.
  assert (Hsf : is_file s = f1 /\ is_closer s = c) by (rewrite Hs; destruct (calls_file h s1) as [-> ->]; done).
  destruct Hsf as [Hsf Hsc].
  assert (Hsz : Z.of_nat (size (is_map s)) < 2 ^ 32).
  { pose proof (ii_size _ _ I) as Hz. rewrite app_length, map_length in Hz. lia. }
  rewrite i_close_ok in Hcl by (first [apply I | by apply (iinv_seek _ _ 6 I); lia]).
  injection Hcl as <-. cbn [is_file] in Hd. rewrite Hsc, Hsf in Hd.
  rewrite image_shape in Hd1.
  rewrite (close_crash_image _ _ f1 c (be_enc 4 (Z.of_nat (length l0))) (ipairs l0 ++ tail) j (be_enc_length _ _) Hd1) in Hd.
  assert (Hlb : length (be_enc 4 (Z.of_nat (length l0))) = 4%nat) by apply be_enc_length.
  split; [|split].
  - intros Hj. rewrite decide_True in Hd by done. apply i_open_bad; [done|by apply usable_healthy|rewrite Hd, Hd1; done|].
    right. right. exists 1. rewrite Hd, Hd1. done.
  - intros ->. rewrite decide_False in Hd by lia.
    assert (Hd' : f_data f = index_image 0 l0 ++ tail) by (rewrite Hd, image_shape; done).
    destruct (open_image_inv bsz rsz c f l0 tail) as (f2 & t & E2 & _ & _ & Hm2 & _); [done|done|done|lia|done|].
    exists f2, t. split; [done|]. intros id. unfold i_get. by rewrite Hm2, Hm.
  - intros Hj. rewrite decide_False in Hd by lia.
    set (l := shuf sh (map_to_list (is_map s))) in *.
    assert (Hll : length l = size (is_map s)) by apply saved_length.
    rewrite (take_ge (be_enc 4 _)) in Hd by (rewrite be_enc_length; lia).
    rewrite (drop_ge (be_enc 4 _)) in Hd by lia. rewrite app_nil_r in Hd.
    rewrite (take_ge (ipairs l)) in Hd by (rewrite ipairs_length; lia). rewrite <- Hll in Hd.
    assert (Hd' : exists tl, f_data f = index_image 0 l ++ tl).
    { exists (drop (length (ipairs l)) (ipairs l0 ++ tail)). rewrite Hd, image_shape. done. }
    destruct Hd' as [tl Hd'].
    destruct (open_image_inv bsz rsz c f l tl) as (f2 & t & E2 & _ & _ & Hm2 & _); [done|done|apply saved_typed, I|lia|done|].
    exists f2, t. split; [done|]. intros id. unfold i_get. rewrite Hm2. unfold l. by rewrite imap_saved.
Qed.
Print Assumptions C33_crash_in_close_partial.

(** The first Close after the creation of the file never leaves a mixture, wherever
    the process dies: Open fails, or gives the empty index the file was created with,
    or the index being saved. *)
Theorem C33_crash_in_first_close_partial :
  forall bsz rsz c f0 f0' s0 h s sh s' j f, (0 < rsz)%nat ->
  usable f0 -> f_data f0 = [] -> i_open bsz rsz c f0 = (f0', Ret s0) ->
  Forall iv_typed h -> Z.of_nat (length h) < 2 ^ 32 ->
  s = i_calls h s0 -> i_close bsz sh s = (s', Ret tt) ->
  usable f -> f_data f = crash_image (is_file s) (is_file s') j ->
  (exists f' e, i_open bsz rsz c f = (f', Err e)) \/
  (exists f' t, i_open bsz rsz c f = (f', Ret t) /\ (forall id, i_get t id = None) /\
     (j < 6 + 16 * size (is_map s))%nat) \/
  (exists f' t, i_open bsz rsz c f = (f', Ret t) /\ (forall id, i_get t id = i_get s id) /\
     (6 + 16 * size (is_map s) <= j)%nat).
Proof.
  intros bsz rsz c f0 f0' s0 h s sh s' j f Hrsz Hu0 Hd0 Ho Hth Hlen Hs Hcl Hu Hd.
  destruct (i_open_empty bsz rsz c f0 (usable_healthy _ Hu0) Hd0) as (log & _ & E). cbn zeta in E.
  rewrite E in Ho. injection Ho as <- <-.
  set (f1 := File (f_kind f0) (index_image 1 []) 12 false [] log) in *.
  set (s0 := IStore ∅ f1 c) in *.
  assert (I0 : iinv [] s0).
  { constructor; cbn [s0 is_file is_map]; try done.
    + right. cbn. lia.
    + exists [0;0;0;0], []. done. }
  pose proof (calls_inv h _ s0 I0 Hth) as I. rewrite <- Hs in I. cbn [app] in I.
  assert (Hsf : is_file s = f1 /\ is_closer s = c) by (rewrite Hs; destruct (calls_file h s0) as [-> ->]; done).
  destruct Hsf as [Hsf Hsc].
  assert (Hsz : Z.of_nat (size (is_map s)) < 2 ^ 32) by (pose proof (ii_size _ _ I); lia).
  rewrite i_close_ok in Hcl by (first [apply I | by apply (iinv_seek _ _ 6 I); lia]).
  injection Hcl as <-. cbn [is_file] in Hd. rewrite Hsc, Hsf in Hd.
  rewrite (close_crash_image _ _ f1 c [0;0;0;0] [] j) in Hd by done. rewrite drop_nil, app_nil_r in Hd.
  pose proof (usable_healthy _ Hu) as Hh.
  destruct (decide (j <= 1)%nat) as [Hj | Hj].
  { left. destruct (i_open_bad bsz rsz c f) as (f' & e & Hx & _); [done|done|by rewrite Hd| |eauto].
    right. right. exists 1. rewrite Hd. done. }
  set (l := shuf sh (map_to_list (is_map s))) in *.
  assert (Hll : length l = size (is_map s)) by apply saved_length.
  set (n := Z.of_nat (size (is_map s))) in *.
  set (cnt := take (j - 2) (be_enc 4 n) ++ drop (j - 2) [0;0;0;0]) in *.
  assert (Hc : length cnt = 4%nat).
  { unfold cnt. rewrite app_length, take_length, drop_length, be_enc_length. cbn [length]. lia. }
  assert (Hcb : Forall is_byte cnt).
  { unfold cnt. apply Forall_app. split; [apply Forall_take, be_enc_bytes|apply Forall_drop].
    by repeat (apply Forall_cons; split; [done|]). }
  destruct (decide (6 + 16 * size (is_map s) <= j)%nat) as [Hall | Hall].
  - right. right.
    assert (Hcnt : cnt = be_enc 4 n).
    { unfold cnt. rewrite take_ge by (rewrite be_enc_length; lia). rewrite drop_ge by (cbn; lia). by rewrite app_nil_r. }
    rewrite Hcnt, (take_ge (ipairs l)) in Hd by (rewrite ipairs_length; lia).
    assert (Hd' : f_data f = index_image 0 l ++ []).
    { rewrite Hd, image_shape, app_nil_r, Hll. done. }
    destruct (open_image_inv bsz rsz c f l []) as (f2 & t & E2 & _ & _ & Hm2 & _); [done|done|apply saved_typed, I|lia|done|].
    exists f2, t. split; [done|]. split; [|done]. intros id. unfold i_get. rewrite Hm2. unfold l. by rewrite imap_saved.
  - destruct (decide (be_dec cnt = 0)) as [Hz | Hz].
    + right. left. destruct (i_open_none bsz rsz c f 1 cnt (take (j - 6) (ipairs l)) Hrsz Hh Hc Hd Hz) as (f' & t & Ht & Hm).
      exists f', t. split; [done|]. split; [|lia]. intros id. unfold i_get. by rewrite Hm.
    + left. apply (i_open_short bsz rsz c f 1 cnt (take (j - 6) (ipairs l)) Hrsz Hh Hc Hd).
      pose proof (be_dec_range cnt Hcb). rewrite take_length, ipairs_length, Hll.
      destruct (decide (j < 6)%nat); [lia|].
      assert (Hcnt : cnt = be_enc 4 n).
      { unfold cnt. rewrite take_ge by (rewrite be_enc_length; lia). rewrite drop_ge by (cbn; lia). by rewrite app_nil_r. }
      rewrite Hcnt, be_dec_enc by (change (256 ^ Z.of_nat 4) with (2 ^ 32); lia). lia.
Qed.
Print Assumptions C33_crash_in_first_close_partial.

(** Dying at any other time while an index is open: the file is refused. *)
Theorem C33_locked_while_open :
  forall bsz rsz c h s f, (0 < rsz)%nat -> isession bsz rsz c h s -> Z.of_nat (length h) < 2 ^ 32 ->
  usable f -> f_data f = f_data (is_file s) ->
  exists f' e, i_open bsz rsz c f = (f', Err e) /\ f_data f' = f_data f.
Proof.
  intros bsz rsz c h s f Hrsz Hs Hl Hu Hd. destruct (session_inv bsz rsz c h s Hrsz Hs Hl) as [I _].
  destruct (ii_data _ _ I) as (cnt & rest & Hc & Hdata). rewrite Hdata in Hd.
  apply i_open_bad; [done|by apply usable_healthy|by rewrite Hd|]. right. right. exists 1. by rewrite Hd.
Qed.
Print Assumptions C33_locked_while_open.

(** Dying while Open creates the file: it is either still empty or refused for ever. *)
Theorem C33_crash_in_creation :
  forall bsz rsz c f0 f0' s0 j f, (0 < rsz)%nat ->
  usable f0 -> f_data f0 = [] -> i_open bsz rsz c f0 = (f0', Ret s0) ->
  usable f -> f_data f = crash_image f0 f0' j ->
  (j = 0%nat -> f_data f = []) /\
  ((0 < j)%nat -> exists f' e, i_open bsz rsz c f = (f', Err e) /\ f_data f' = f_data f).
Proof.
  intros bsz rsz c f0 f0' s0 j f Hrsz Hu0 Hd0 Ho Hu Hd.
  split; [intros ->; rewrite Hd; unfold crash_image; by rewrite take_0|].
  intros Hj. destruct (i_open_empty bsz rsz c f0 (usable_healthy _ Hu0) Hd0) as (log & Hlog & E). cbn zeta in E.
  rewrite E in Ho. injection Ho as <- <-.
  unfold crash_image, written_by in Hd. cbn [f_log] in Hd.
  rewrite Hlog, drop_app_alt, wsets_take, Hd0 in Hd by done.
  rewrite replay_wsets in Hd by (right; cbn; lia).
  assert (Hd' : f_data f = take j (index_image 1 [])).
  { rewrite Hd. unfold splice. rewrite take_0, drop_nil, app_nil_r. done. }
  apply i_open_bad; [done|by apply usable_healthy| |]; rewrite Hd'.
  - destruct j; [lia|done].
  - right. destruct (decide (j < 12)%nat) as [Hs | Hs]; [left; rewrite take_length; lia|].
    right. exists 1. rewrite take_ge by (cbn; lia). done.
Qed.
Print Assumptions C33_crash_in_creation.

(** Non-trivial cases of the hypotheses above. *)
Example C33_case :
  let sh := Shuffle _ (fun l : list (Z * Z) => l) (fun l => reflexivity l) in
  exists s0 s s', (exists f0', i_open 16 16 true (open_file KOs []) = (f0', Ret s0)) /\
    s = i_calls [IvPut 1 10] s0 /\ i_close 16 sh s = (s', Ret tt) /\
    (** dying between the count and its entry *)
    (exists f' e, i_open 16 16 true (open_file KOs (crash_image (is_file s) (is_file s') 9)) = (f', Err e)) /\
    (** dying before the count is complete *)
    (exists f' t, i_open 16 16 true (open_file KOs (crash_image (is_file s) (is_file s') 4)) = (f', Ret t) /\
       i_get t 1 = None) /\
    (exists f' t, i_open 16 16 true (open_file KOs (crash_image (is_file s) (is_file s') 22)) = (f', Ret t) /\
       i_get t 1 = Some 10).
Proof.
  cbn zeta. eexists _, _, _. split; [eexists; by vm_compute|]. split; [done|]. split; [by vm_compute|].
  split; [eexists _, _; by vm_compute|].
  split; eexists _, _; (split; [vm_compute; reflexivity|by vm_compute]).
Qed.

(** * C59 *)

(** What is written, through any working writer. *)
Theorem C59_index_written :
  forall (W : Type) (wr : writer W) (out : W -> list byte), working_writer wr out ->
  forall w,
  (exists w', i_write_prefix wr w = (w', Ret tt) /\ out w' = out w ++ index_magic) /\
  (forall version locked count, is_byte version -> is_byte locked -> is_u32 count ->
   exists w', i_write_header wr (IHeader version locked count) w = (w', Ret tt) /\
     out w' = out w ++ [version; locked] ++ be32 count) /\
  (forall id idx, is_u64 id -> is_u64 idx ->
   exists w', i_write_entry wr (IEntry id idx) w = (w', Ret tt) /\ out w' = out w ++ be64 id ++ be64 idx).
Proof.
  intros W wr out Hw w. pose proof (working_writer_lawful wr out Hw) as L.
  split; [|split].
  - by apply emits_out, emits_iprefix.
  - intros v l c Hv Hl Hc.
    destruct (emits_out out _ _ _ w (emits_iheader wr _ _ L (IHeader v l c))) as (w' & ? & E).
    exists w'. split; [done|]. rewrite E. f_equal. unfold enc_iheader. cbn [ih_version ih_locked ih_count].
    rewrite (be_enc_1 v), (be_enc_1 l) by done. done.
  - intros k v Hk Hv. by apply (emits_out out _ _ _ w (emits_ientry wr _ _ L k v)).
Qed.
Print Assumptions C59_index_written.

(** What was written is read back, through any reader delivering it. *)
Theorem C59_index_read_back :
  forall (R : Type) (rd : reader R) (rest : R -> list byte), any_reader rd rest ->
  forall r tail,
  (rest r = index_magic ++ tail ->
   exists r', i_read_prefix rd r = (r', Ret tt) /\ rest r' = tail) /\
  (forall version locked count, is_byte version -> is_byte locked -> is_u32 count ->
   rest r = [version; locked] ++ be32 count ++ tail ->
   exists r', i_read_header rd r = (r', Ret (IHeader version locked count)) /\ rest r' = tail) /\
  (forall id idx, is_u64 id -> is_u64 idx -> rest r = be64 id ++ be64 idx ++ tail ->
   exists r', i_read_entry rd r = (r', Ret (IEntry id idx)) /\ rest r' = tail).
Proof.
  intros R rd rest Hr r tail. pose proof (any_reader_lawful rd rest Hr) as L.
  split; [|split].
  - intros E. destruct (follows_iprefix rd _ _ _ L r I) as (r' & H & _ & Hrest & _).
    rewrite E, iread_prefix_ok in *. by exists r'.
  - intros v l c Hv Hl Hc E.
    destruct (follows_iheader rd _ _ _ L r I) as (r' & H & _ & Hrest & _).
    rewrite E in *.
    assert (Hh := iread_header_app v l (be32 c) tail eq_refl).
    change ([v; l] ++ be32 c ++ tail) with (v :: l :: be32 c ++ tail) in *.
    rewrite Hh in *. exists r'. split; [|done]. cbn [snd] in H. rewrite H.
    do 3 f_equal. rewrite (be32_enc c). by apply be_dec_enc.
  - intros k v Hk Hv E.
    destruct (follows_ientry rd _ _ _ L r I) as (r' & H & _ & Hrest & _).
    assert (Hx := iread_entry_app k v tail Hk Hv). unfold ipair in Hx. rewrite <- app_assoc in Hx.
    rewrite E in *. change (be64 k ++ be64 v ++ tail) with (be_enc 8 k ++ be_enc 8 v ++ tail) in *.
    cbn [fst snd] in Hx. rewrite Hx in *. by exists r'.
Qed.
Print Assumptions C59_index_read_back.

(** Anything that does not start with the magic is refused. *)
Theorem C59_index_prefix_checked :
  forall (R : Type) (rd : reader R) (rest : R -> list byte), any_reader rd rest ->
  forall r, take 6 (rest r) <> index_magic -> exists r' e, i_read_prefix rd r = (r', Err e).
Proof.
  intros R rd rest Hr r Hne. pose proof (any_reader_lawful rd rest Hr) as L.
  destruct (follows_iprefix rd _ _ _ L r I) as (r' & H & _ & _).
  destruct (iread_prefix_bad _ Hne) as (l' & e & E). rewrite E in H. eauto.
Qed.
Print Assumptions C59_index_prefix_checked.

Example C59_case :
  i_write_entry into_list (IEntry 258 (2 ^ 64 - 1)) [7] = ([7; 0;0;0;0;0;0;1;2; 255;255;255;255;255;255;255;255], Ret tt) /\
  i_read_entry one_by_one (be64 258 ++ be64 3 ++ [7]) = ([7], Ret (IEntry 258 3)) /\
  i_read_prefix one_by_one [82; 69; 67; 73; 68; 89] = ([], Err (EMsg "not an index file")).
Proof. by vm_compute. Qed.

(** * C60 *)

(** Whatever reads, writes and seeks do, when Close returns the file is closed. *)
Theorem C60_index_close_releases_file :
  forall bsz sh s, is_closer s = true ->
  f_closed (is_file (fst (i_close bsz sh s))) = true /\
  (snd (i_close bsz sh s) = Ret tt \/ exists e, snd (i_close bsz sh s) = Err e).
Proof.
  intros bsz sh s Hc. destruct (i_close_closes bsz sh s Hc) as (H1 & H2 & H3). split; [done|].
  destruct (snd (i_close bsz sh s)) as [[]|e| |]; [by left|right; eauto|done|done].
Qed.
Print Assumptions C60_index_close_releases_file.

(** The disk is full after 3 bytes. *)
Example C60_case :
  let sh := Shuffle _ (fun l : list (Z * Z) => l) (fun l => reflexivity l) in
  let s := IStore {[1 := 10]} (File KOs (index_image 1 []) 12 false [FErr 3] []) true in
  snd (i_close 16 sh s) = Err (EMsg "failed flush buffer") /\ f_closed (is_file (fst (i_close 16 sh s))) = true.
Proof. by vm_compute. Qed.
