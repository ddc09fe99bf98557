(** The files a start of a namespace leaves open. *)
From Verif Require Import Base GoIO Lock Delta Index Naming Service LikeStart StartFiles
  GoIOFacts LockFacts DeltaStoreFacts DeltaHistFacts IndexFacts StartFacts.

(** ** What the calls on a file keep *)

(** Every call leaves a state that has [P]. *)
Definition kp {S A} (P : S -> Prop) (m : io S A) : Prop := forall s, P s -> P (fst (m s)).

Section Calculus.
  Context {S : Type} (P : S -> Prop).
  Lemma kp_ret {A} (a : A) : kp P (ioret a).
  Proof. intros s Hs. exact Hs. Qed.
  Lemma kp_fail {A} e : kp P (@iofail S A e).
  Proof. intros s Hs. exact Hs. Qed.
  Lemma kp_bind {A B} (m : io S A) (f : A -> io S B) : kp P m -> (forall a, kp P (f a)) -> kp P (iobind m f).
  Proof.
    intros Hm Hf s Hs. unfold iobind. specialize (Hm s Hs). destruct (m s) as [s' [a|e| |]]; try done.
    by apply Hf.
  Qed.
  Lemma kp_maperr {A} g (m : io S A) : kp P m -> kp P (iomaperr g m).
  Proof. intros Hm s Hs. unfold iomaperr. specialize (Hm s Hs). by destruct (m s) as [s' [a|e| |]]. Qed.
  Lemma kp_read_full (rd : reader S) n : (forall n s, P s -> P (fst (rd n s))) -> kp P (read_full rd n).
  Proof.
    intros Hr. unfold read_full. generalize n at 1 as fuel. intros fuel. generalize (@nil byte) as acc.
    induction fuel as [|fuel IH]; intros acc s Hs; cbn [read_full_loop]; destruct (_ <=? _)%nat; try done.
    specialize (Hr (n - length acc)%nat s Hs). destruct (rd _ s) as [s' [bs e]]. cbn in Hr.
    destruct e as [e|]; [|by apply IH]. destruct (_ <=? _)%nat; [done|]. by destruct e, (acc ++ bs).
  Qed.
  Lemma kp_read_uint (rd : reader S) k : (forall n s, P s -> P (fst (rd n s))) -> kp P (read_uint rd k).
  Proof. intros Hr. apply kp_bind; [by apply kp_read_full|intros; apply kp_ret]. Qed.
  Lemma kp_write_all (wr : writer S) bs : (forall bs s, P s -> P (fst (wr bs s))) -> kp P (write_all wr bs).
  Proof. intros Hw s Hs. unfold write_all. specialize (Hw bs s Hs). by destruct (wr bs s) as [s' [n e]]. Qed.
End Calculus.

Section OneFile.
  Context (P : file -> Prop)
    (Pr : forall n f, P f -> P (fst (fread n f)))
    (Pw : forall bs f, P f -> P (fst (fwrite bs f)))
    (Ps : forall off w, kp P (fseek off w))
    (Pt : forall n, kp P (ftruncate n)).

  Lemma kp_read_one : kp P read_one.
  Proof using Pr. intros f Hf. unfold read_one. specialize (Pr 1%nat f Hf). by destruct (fread 1%nat f) as [f' [bs [e|]]]. Qed.

  Ltac kps := repeat first
    [ apply kp_ret | apply kp_fail | apply kp_maperr | apply Ps | apply Pt | apply kp_read_one
    | (apply kp_write_all; apply Pw) | (apply kp_read_full; apply Pr) | (apply kp_read_uint; apply Pr)
    | (apply kp_bind; [|intros ?]) ].

  Lemma kp_write_locked off b : kp P (write_locked_at off b).
  Proof using Pr Pw Ps Pt. unfold write_locked_at. kps. Qed.
  Lemma kp_is_locked off : kp P (is_locked_at off).
  Proof using Pr Pw Ps Pt. unfold is_locked_at. kps. Qed.
  Lemma kp_read_prefix : kp P (d_read_prefix fread).
  Proof using Pr Pw Ps Pt. unfold d_read_prefix. kps. destruct (bool_decide _); kps. Qed.
  Lemma kp_read_header : kp P (d_read_header fread).
  Proof using Pr Pw Ps Pt. unfold d_read_header. kps. Qed.
  Lemma kp_read_entry : kp P (d_read_entry fread).
  Proof using Pr Pw Ps Pt. unfold d_read_entry. kps. Qed.
  Lemma kp_load n c : kp P (load_entries fread n c).
  Proof using Pr Pw Ps Pt.
    revert c. induction n as [|n IH]; intros c; cbn; [kps|]. apply kp_bind; [apply kp_maperr, kp_read_entry|]. intros e. apply IH.
  Qed.
  Lemma kp_d_open : kp P d_open.
  Proof using Pr Pw Ps Pt.
    unfold d_open. apply kp_bind; [kps|]. intros size. apply kp_bind.
    - destruct (_ =? _); [unfold d_write_prefix, d_write_header, write_uint; kps|]. apply kp_bind; [kps|]. intros _.
      unfold d_load. apply kp_bind; [apply kp_read_prefix|]. intros _. apply kp_bind; [apply kp_read_header|]. intros h.
      destruct (negb _); [kps|]. apply kp_bind; [apply kp_load|]. intros c. kps.
    - intros x. apply kp_bind; [apply kp_maperr, kp_write_locked|]. intros _ f Hf. done.
  Qed.

  Definition on1 (s : file * file) := P (fst s).
  Lemma kp_on_fst {A} (m : io file A) : kp P m -> kp on1 (on_fst m).
  Proof using. intros Hm [f t] Hf. unfold on_fst. specialize (Hm f Hf). by destruct (m f). Qed.
  Lemma kp_on_snd {A} (m : io file A) : kp on1 (on_snd m).
  Proof using. intros [f t] Hf. unfold on_snd. by destruct (m t). Qed.

  Lemma kp_recover_loop fuel n : kp on1 (recover_loop fread fuel n).
  Proof using Pr Pw Ps Pt.
    revert n. induction fuel as [|fuel IH]; intros n s Hs; cbn [recover_loop]; [done|].
    pose proof (kp_on_fst _ kp_read_entry s Hs) as H. destruct (on_fst _ s) as [s' [e|e| |]]; try done.
    destruct (negb _); [by apply IH|]. apply kp_bind; [apply kp_on_snd|intros _; apply IH|done].
  Qed.
  Lemma kp_recover_to fuel : kp on1 (recover_to fread fuel).
  Proof using Pr Pw Ps Pt.
    unfold recover_to. apply kp_bind; [apply kp_on_snd|]. intros _ s Hs.
    pose proof (kp_on_fst _ kp_read_prefix s Hs) as H. destruct (on_fst _ s) as [s1 [[]|e| |]]; try done; [|by apply kp_on_snd].
    pose proof (kp_on_fst _ kp_read_header s1 H) as H1. destruct (on_fst _ s1) as [s2 [h|e| |]]; try done; [|by apply kp_on_snd].
    revert H1. apply kp_bind; [apply kp_on_snd|]. intros _. apply kp_bind; [apply kp_recover_loop|]. intros n.
    destruct (negb _); [|apply kp_ret]. apply kp_bind; [apply kp_on_snd|]. intros _. apply kp_on_snd.
  Qed.
  Lemma kp_copy_loop csz fuel n t f : P f -> P (snd (fst (copy_loop fread fwrite csz fuel n (t, f)))).
  Proof using Pr Pw Ps Pt.
    revert n t f. induction fuel as [|fuel IH]; intros n t f Hf; [done|]. cbn [copy_loop fst snd].
    destruct (fread csz t) as [t' [bs e]]. destruct bs as [|b bs].
    - destruct e as [e|]; [by destruct e|by apply IH].
    - pose proof (Pw (b :: bs) f Hf) as H. destruct (fwrite (b :: bs) f) as [f' [nw [ew|]]]; [done|].
      destruct (negb _); [done|]. destruct e as [e|]; [by destruct e|]. by apply IH.
  Qed.
  Lemma kp_recover csz : kp P (d_recover csz).
  Proof using Pr Pw Ps Pt.
    intros f Hf. unfold d_recover. pose proof (kp_recover_to (S (length (f_data f))) (f, open_file KBuf []) Hf) as H.
    destruct (recover_to _ _ _) as [[f1 tmp] [[]|e| |]]; try done.
    match goal with |- context [iobind ?m ?k (f1, tmp)] => assert (Hk : kp on1 (iobind m k)) end.
    { apply kp_bind; [by apply kp_on_fst|]. intros _. apply kp_bind; [apply kp_on_snd|]. intros _.
      apply kp_bind.
      { intros [g t] Hg. pose proof (kp_copy_loop csz (S (length (f_data t))) 0 t g Hg) as Hc.
        by destruct (copy_loop _ _ _ _ _ _) as [[t' g'] o]. }
      intros n. apply kp_bind; [by apply kp_on_fst|]. intros _. by apply kp_on_fst. }
    specialize (Hk (f1, tmp) H). by destruct (iobind _ _ (f1, tmp)) as [[g t] o].
  Qed.

  (** An opened delta storage has the file it was given. *)
  Lemma opened_delta_keeps csz f f' s : P f -> d_open_maybe_recover csz f = (f', Ret s) ->
    P f' /\ ds_file s = f' /\ ds_new s = ∅.
  Proof using Pr Pw Ps Pt.
    intros Hf. unfold d_open_maybe_recover, iobind at 1.
    pose proof (kp_maperr P (fun _ => EMsg "failed to check if file is locked") _ (kp_is_locked delta_locked_offset) f Hf) as H1.
    unfold d_is_locked. destruct (iomaperr _ (is_locked_at _) f) as [f1 [l|e| |]]; try done. cbn [fst] in H1.
    unfold iobind at 1.
    assert (H2 : P (fst ((if l then iomaperr (fun _ => EMsg "failed to recover") (d_recover csz) else ioret tt) f1))).
    { destruct l; [|done]. by apply kp_maperr, H1; [apply kp_recover]. }
    set (m := if l then _ else _) in *. destruct (m f1) as [f2 [[]|e| |]]; try done. cbn [fst] in H2.
    pose proof (kp_d_open f2 H2) as H3. intros E.
    destruct (d_open f2) as [f3 [t|e| |]] eqn:Eo; try done. injection E as -> ->. split; [done|].
    unfold d_open in Eo. unfold iobind at 1 in Eo. destruct (fseek 0 SeekEnd f2) as [g [z|e| |]]; try done.
    unfold iobind at 1 in Eo. set (m2 := if _ =? _ then _ else _) in Eo. destruct (m2 g) as [g1 [x|e| |]]; try done.
    unfold iobind at 1 in Eo. destruct (iomaperr _ _ g1) as [g2 [[]|e| |]]; try done. by injection Eo as <- <-.
  Qed.

  (** *** bufio *)

  Definition onw (b : bwriter file) := P (bw_w b).
  Definition onr (b : breader file) := P (br_r b).

  Lemma kp_bw_flush : kp onw (bw_flush fwrite).
  Proof using Pw.
    intros b Hb. unfold bw_flush. destruct (bw_err b); [done|]. destruct (bw_buf b) as [|x l]; [done|].
    pose proof (Pw (x :: l) (bw_w b) Hb) as H. destruct (fwrite _ _) as [f' [n [e|]]]; [done|].
    by destruct (_ <? _)%nat.
  Qed.
  Lemma kp_bw_write_loop size fuel nn p b : onw b -> onw (fst (bw_write_loop fwrite size fuel nn p b)).
  Proof using Pw.
    revert nn p b. induction fuel as [|fuel IH]; intros nn p b Hb; cbn [bw_write_loop];
      destruct (bw_err b); try done; destruct (_ <=? _)%nat; try done.
    destruct (bw_buf b) as [|x l].
    - pose proof (Pw p (bw_w b) Hb) as H. destruct (fwrite _ _) as [f' [n e]]. by apply IH.
    - set (b0 := BWriter _ _ _). pose proof (kp_bw_flush b0 Hb) as H. destruct (bw_flush fwrite b0) as [b' o]. by apply IH.
  Qed.
  Lemma kp_bw_write size bs b : onw b -> onw (fst (bw_write fwrite size bs b)).
  Proof using Pw. apply kp_bw_write_loop. Qed.
  Lemma kp_with_bufio {A} (m : io (bwriter file) A) : kp onw m -> kp P (with_bufio m).
  Proof using. intros Hm f Hf. unfold with_bufio. specialize (Hm (new_bwriter f) Hf). by destruct (m _). Qed.

  Lemma kp_br_read size n b : onr b -> onr (fst (br_read fread size n b)).
  Proof using Pr.
    intros Hb. unfold br_read. destruct n as [|n].
    { by destruct (br_buf b). }
    destruct (br_buf b) as [|x l]; [|done]. destruct (br_err b) as [e|]; [done|].
    destruct (_ <=? _)%nat.
    - pose proof (Pr (S n) (br_r b) Hb) as H. by destruct (fread _ _) as [f' [bs e]].
    - pose proof (Pr size (br_r b) Hb) as H. by destruct (fread _ _) as [f' [[|y bs] e]].
  Qed.
  Lemma kp_with_breader {A} (m : io (breader file) A) : kp onr m -> kp P (with_breader m).
  Proof using. intros Hm f Hf. unfold with_breader. specialize (Hm (new_breader f) Hf). by destruct (m _). Qed.
  Lemma kp_under_reader {A} (m : io file A) : kp P m -> kp onr (under_reader m).
  Proof using. intros Hm b Hb. unfold under_reader. specialize (Hm (br_r b) Hb). by destruct (m _). Qed.

  Lemma kp_i_load_entries rsz n c : kp onr (i_load_entries (br_read fread rsz) n c).
  Proof using Pr.
    revert c. induction n as [|n IH]; intros c; cbn; [apply kp_ret|].
    apply kp_bind; [|intros e; apply IH]. apply kp_maperr. unfold i_read_entry.
    apply kp_bind; [apply kp_read_uint, kp_br_read|]. intros a. apply kp_bind; [apply kp_read_uint, kp_br_read|]. intros ?. apply kp_ret.
  Qed.
  Lemma kp_i_load rsz : kp P (i_load rsz).
  Proof using Pr Pw Ps Pt.
    unfold i_load. apply kp_bind; [apply Ps|]. intros _. apply kp_with_breader.
    apply kp_bind.
    { apply kp_maperr. unfold i_read_prefix. apply kp_bind; [apply kp_read_full, kp_br_read|]. intros a.
      repeat case_match; first [apply kp_ret|apply kp_fail]. }
    intros _. apply kp_bind.
    { apply kp_maperr. unfold i_read_header. apply kp_bind; [apply kp_read_full, kp_br_read|]. intros a. apply kp_ret. }
    intros h. destruct (negb _); [apply kp_fail|].
    apply kp_bind; [apply kp_maperr, kp_under_reader, kp_write_locked|]. intros _. apply kp_i_load_entries.
  Qed.
  Lemma kp_i_create bsz : kp P (i_create bsz).
  Proof using Pw.
    unfold i_create. apply kp_with_bufio. unfold i_write_prefix, i_write_header, write_uint.
    repeat first [apply kp_maperr | apply kp_bw_flush | (apply kp_write_all; intros; by apply kp_bw_write)
      | (apply kp_bind; [|intros ?])].
  Qed.

  Lemma opened_index_keeps bsz rsz c f f' s : P f -> i_open bsz rsz c f = (f', Ret s) ->
    P f' /\ is_file s = f' /\ is_closer s = c.
  Proof using Pr Pw Ps Pt.
    intros Hf. unfold i_open, iobind at 1, closing at 1. pose proof (Ps 0 SeekEnd f Hf) as H1.
    destruct (fseek 0 SeekEnd f) as [f1 [size|e| |]]; try done. cbn [fst] in H1.
    unfold iobind at 1. destruct (0 <? size).
    - unfold closing at 1. pose proof (kp_maperr P (fun _ => EMsg "failed to load index") _ (kp_i_load rsz) f1 H1) as H2.
      destruct (iomaperr _ _ f1) as [f2 [m|e| |]]; try done. by intros [= <- <-].
    - unfold iobind at 1. unfold closing at 1.
      pose proof (kp_maperr P (fun _ => EMsg "failed to load index") _ (kp_i_create bsz) f1 H1) as H2.
      destruct (iomaperr _ _ f1) as [f2 [m|e| |]]; try done. by intros [= <- <-].
  Qed.
End OneFile.

Definition opened (f : file) : Prop := f_closed f = false.
Definition works (f : file) : Prop := f_closed f = false /\ f_env f = [] /\ f_kind f = KOs.

Lemma opened_read n f : opened f -> opened (fst (fread n f)).
Proof.
  destruct f as [k d p c env l]. unfold opened. cbn. intros ->. unfold fread. cbn [f_closed].
  destruct env as [|[|j] env]; cbn; repeat case_match; done.
Qed.
Lemma opened_write bs f : opened f -> opened (fst (fwrite bs f)).
Proof.
  destruct f as [k d p c env l]. unfold opened. cbn. intros ->. unfold fwrite. cbn [f_closed].
  destruct env as [|[|j] env]; cbn [next_fault f_env f_kind f_data f_pos f_closed f_log]; cbn [fst]; by rewrite fput_closed.
Qed.
Lemma opened_seek off w : kp opened (fseek off w).
Proof. intros f Hf. unfold fseek. rewrite Hf. cbn zeta. by destruct (match f_kind f with KBuf => _ | KOs => _ end). Qed.
Lemma opened_trunc n : kp opened (ftruncate n).
Proof.
  intros f. destruct f as [k d p c env l]. unfold opened. cbn. intros ->. unfold ftruncate. cbn [f_closed].
  destruct env as [|[|j] env]; cbn; by destruct (n <? 0).
Qed.

Lemma works_read n f : works f -> works (fst (fread n f)).
Proof.
  destruct f as [k d p c env l]. unfold works. cbn. intros (-> & -> & ->). unfold fread. cbn.
  destruct n; [done|]. by destruct (drop p d).
Qed.
Lemma works_write bs f : works f -> works (fst (fwrite bs f)).
Proof.
  intros (H1 & H2 & H3). rewrite fwrite_healthy by done. cbn [fst]. split; [by rewrite fput_closed|].
  split; [by rewrite fput_env|]. by rewrite fput_kind.
Qed.
Lemma works_seek off w : kp works (fseek off w).
Proof. intros f Hf. unfold fseek. destruct Hf as (H1 & H2 & H3). rewrite H1, H3. cbn zeta. by destruct (_ <? 0). Qed.
Lemma works_trunc n : kp works (ftruncate n).
Proof.
  intros f. destruct f as [k d p c env l]. unfold works. cbn. intros (-> & -> & ->). unfold ftruncate. cbn.
  by destruct (n <? 0).
Qed.

(** Close of a delta storage nothing was added to succeeds if no write fails. *)
Lemma untouched_close bsz sh s : works (ds_file s) -> ds_new s = ∅ ->
  f_closed (ds_file (fst (d_close bsz sh s))) = true.
Proof.
  intros (H1 & H2 & H3) Hn. unfold d_close, iobind, iomaperr.
  rewrite d_flush_ok; [|done|by left|]; [|rewrite Hn; unfold visit; rewrite map_to_list_empty].
  2:{ assert (E : shuf sh [] = []) by (apply Permutation_nil; symmetry; apply shuf_perm). rewrite E. constructor. }
  unfold on_dfile at 1. cbn [ds_file ds_cache ds_new ds_total ds_unflushed]. set (ff := flushed_file _ _ _).
  assert (Hk : f_kind ff = KOs).
  { unfold ff, flushed_file, hdr_file. by rewrite ?fput_kind. }
  unfold d_write_locked. change delta_locked_offset with (Z.of_nat 9).
  rewrite write_locked_ok; [|by apply flushed_file_healthy|by left|by left].
  unfold on_dfile. cbn [ds_file]. set (f2 := File _ _ _ _ _ _). by rewrite (fclose_healthy f2).
Qed.

(** ** Start *)

Lemma release_head p l : release p (p :: l) = l.
Proof. cbn. by rewrite decide_True. Qed.
Lemma release_skip p q l : q <> p -> release p (q :: l) = q :: release p l.
Proof. intros H. cbn. by rewrite decide_False. Qed.

Lemma fs_open_disk o path s :
  (o_disk (fst (fs_open o path s)), snd (fs_open o path s)) = os_open o path (o_disk s).
Proof. unfold fs_open. by destruct (os_open o path (o_disk s)) as [d [f|e| |]]. Qed.

Lemma fs_open_delta_disk v path s :
  (o_disk (fst (fs_open_delta v path s)), snd (fs_open_delta v path s)) = open_delta_storage v path (o_disk s).
Proof.
  unfold fs_open_delta, open_delta_storage, iobind, iomaperr, fs_open.
  destruct (os_open _ path (o_disk s)) as [d [f|e| |]]; try done.
  by destruct (d_open_maybe_recover _ f) as [f' [ds|e| |]].
Qed.

Lemma fs_open_index_disk v path s :
  (o_disk (fst (fs_open_index v path s)), snd (fs_open_index v path s)) = open_index_storage v path (o_disk s).
Proof.
  unfold fs_open_index, open_index_storage, iobind, iomaperr, fs_open.
  destruct (os_open _ path (o_disk s)) as [d [f|e| |]]; try done.
  destruct (i_open _ _ _ f) as [f' [is|e| |]]; try done. destruct (negb _); [done|].
  destruct (ftruncate 0 f') as [f2 [u|e2| |]]; try done. by destruct (i_open _ _ _ f2) as [f3 [is|e3| |]].
Qed.

Lemma fs_open_like_disk v factory path s :
  (o_disk (fst (fs_open_like v factory path s)), snd (fs_open_like v factory path s)) =
  open_like_storage v factory path (o_disk s).
Proof.
  unfold fs_open_like, open_like_storage, iobind, iomaperr, fs_open.
  destruct (os_open _ path (o_disk s)) as [d [f|e| |]]; try done.
  destruct factory as [m|]; [|done]. by destruct (m f) as [f' [u|e| |]].
Qed.

(** What is done to the disk and returned is what LikeStart.v says. *)
Lemma fs_start_disk v factory x s :
  (o_disk (fst (fs_start v factory x s)), snd (fs_start v factory x s)) = ns_start_with v factory x (o_disk s).
Proof.
  unfold fs_start, ns_start_with, iobind. cbv zeta.
  pose proof (fs_open_delta_disk v (ns_file_path (ln_base x) (ln_name x) DeltaFile) s) as H1.
  destruct (fs_open_delta _ _ s) as [s1 [ds|e| |]]; cbn [fst snd] in H1; rewrite <- H1; try done.
  pose proof (fs_open_index_disk v (ns_file_path (ln_base x) (ln_name x) IndexFile) s1) as H2.
  destruct (fs_open_index _ _ s1) as [s2 [is|e| |]]; cbn [fst snd] in H2; rewrite <- H2; try done.
  pose proof (fs_open_like_disk v factory (ns_file_path (ln_base x) (ln_name x) RecdbFile) s2) as H3.
  by destruct (fs_open_like _ _ _ s2) as [s3 [u|e| |]]; cbn [fst snd] in H3; rewrite <- H3.
Qed.

Lemma settle_closed path f s l : f_closed f = true -> o_open s = path :: l -> o_open (settle path f s) = l.
Proof. intros Hf Hs. unfold settle. cbn [o_open]. rewrite Hf, Hs. apply release_head. Qed.
Lemma settle_opened path f s : f_closed f = false -> o_open (settle path f s) = o_open s.
Proof. intros Hf. unfold settle. cbn [o_open]. by rewrite Hf. Qed.

Lemma fs_open_ret o path s s' f : fs_open o path s = (s', Ret f) ->
  o_open s' = path :: o_open s /\ f_closed f = false /\ f_env f = of_faults o /\ f_kind f = KOs.
Proof. unfold fs_open, os_open. destruct (of_opens o); [|done]. by intros [= <- <-]. Qed.
Lemma fs_open_err o path s s' e : fs_open o path s = (s', Err e) -> o_open s' = o_open s.
Proof. unfold fs_open, os_open. destruct (of_opens o); [done|]. by intros [= <- <-]. Qed.

Lemma fs_open_delta_ret v path s s' ds : fs_open_delta v path s = (s', Ret ds) ->
  o_open s' = path :: o_open s /\ opened (ds_file ds) /\ ds_new ds = ∅ /\
  (of_faults (se_delta v) = [] -> works (ds_file ds)).
Proof.
  unfold fs_open_delta, iobind, iomaperr. destruct (fs_open _ path s) as [s1 [f|e| |]] eqn:E1; try done.
  apply fs_open_ret in E1 as (H1 & H2 & H3 & H4).
  destruct (d_open_maybe_recover _ f) as [f' [t|e| |]] eqn:E2; try done. intros [= <- <-].
  destruct (opened_delta_keeps opened opened_read opened_write opened_seek opened_trunc _ _ _ _ H2 E2) as (H5 & H6 & H7).
  split; [by rewrite settle_opened|]. split; [by rewrite H6|]. split; [done|]. intros Hf. rewrite H6.
  apply (opened_delta_keeps works works_read works_write works_seek works_trunc (se_csz v) f f' t); [|done].
  split; [done|]. by rewrite H3.
Qed.

Lemma fs_open_delta_err v path s s' e : fs_open_delta v path s = (s', Err e) -> o_open s' = o_open s.
Proof.
  unfold fs_open_delta, iobind, iomaperr. destruct (fs_open _ path s) as [s1 [f|e1| |]] eqn:E1; try done.
  - apply fs_open_ret in E1 as (H1 & _). destruct (d_open_maybe_recover _ f) as [f' [t|e2| |]]; try done.
    intros [= <- _]. apply settle_closed; [apply fclose_closed|done].
  - intros [= <- _]. by eapply fs_open_err.
Qed.

Lemma fs_open_index_ret v path s s' is : fs_open_index v path s = (s', Ret is) ->
  o_open s' = path :: o_open s /\ opened (is_file is) /\ is_closer is = true.
Proof.
  unfold fs_open_index, iobind, iomaperr. destruct (fs_open _ path s) as [s1 [f|e| |]] eqn:E1; try done.
  apply fs_open_ret in E1 as (H1 & H2 & _).
  destruct (i_open _ _ _ f) as [f' [t|e| |]] eqn:E2; try done.
  - intros [= <- <-].
    destruct (opened_index_keeps opened opened_read opened_write opened_seek opened_trunc _ _ _ _ _ _ H2 E2) as (H5 & H6 & H7).
    split; [by rewrite settle_opened|]. by rewrite H6.
  - rewrite (i_open_error _ _ _ _ _ _ E2). done.
Qed.

Lemma fs_open_index_err v path s s' e : fs_open_index v path s = (s', Err e) -> o_open s' = o_open s.
Proof.
  unfold fs_open_index, iobind, iomaperr. destruct (fs_open _ path s) as [s1 [f|e1| |]] eqn:E1; try done.
  - apply fs_open_ret in E1 as (H1 & _). destruct (i_open _ _ _ f) as [f' [t|e2| |]] eqn:E2; try done.
    rewrite (i_open_error _ _ _ _ _ _ E2). cbn [negb].
    intros [= <- _]. apply settle_closed; [apply fclose_closed|done].
  - intros [= <- _]. by eapply fs_open_err.
Qed.

Lemma fs_open_like_err v factory path s s' e : fs_open_like v factory path s = (s', Err e) -> o_open s' = o_open s.
Proof.
  unfold fs_open_like, iobind, iomaperr. destruct (fs_open _ path s) as [s1 [f|e1| |]] eqn:E1; try done.
  - apply fs_open_ret in E1 as (H1 & _). destruct factory as [m|]; [|done]. destruct (m f) as [f' [t|e2| |]]; try done.
    intros [= <- _]. apply settle_closed; [apply fclose_closed|done].
  - intros [= <- _]. by eapply fs_open_err.
Qed.

Lemma fs_open_like_ret v factory path s s' : fs_open_like v factory path s = (s', Ret tt) ->
  (forall m f f', factory = Some m -> f_closed f = false -> m f = (f', Ret tt) -> f_closed f' = false) ->
  o_open s' = path :: o_open s.
Proof.
  unfold fs_open_like, iobind, iomaperr. destruct (fs_open _ path s) as [s1 [f|e1| |]] eqn:E1; try done.
  apply fs_open_ret in E1 as (H1 & H2 & _). destruct factory as [m|]; [|done].
  destruct (m f) as [f' [[]|e2| |]] eqn:Em; try done. intros [= <-] Hm.
  by rewrite settle_opened by by eapply Hm.
Qed.
