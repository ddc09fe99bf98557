(** Storages whose file is closed. *)
From Verif Require Import Base GoIO Lock Delta Index GoIOFacts.

(** ** Calls on a closed file *)

(** The call leaves a closed file as it is. *)
Definition inert {A} (m : io file A) : Prop := forall f, f_closed f = true -> fst (m f) = f.
(** ... and does not succeed. *)
Definition refusing {A} (m : io file A) : Prop :=
  forall f, f_closed f = true -> exists e, m f = (f, Err e).

Lemma refusing_inert {A} (m : io file A) : refusing m -> inert m.
Proof. intros H f Hf. by destruct (H f Hf) as [e ->]. Qed.

Lemma fwrite_shut bs f : f_closed f = true -> fwrite bs f = (f, (0%nat, Some EClosed)).
Proof. intros H. unfold fwrite. by rewrite H. Qed.

Lemma fseek_refusing o w : refusing (fseek o w).
Proof. intros f H. exists EClosed. unfold fseek. by rewrite H. Qed.

Lemma fclose_shut f : f_closed f = true -> fst (fclose f) = f.
Proof. destruct f. cbn. intros ->. by destruct f_kind. Qed.

Lemma bind_refusing {A B} (m : io file A) (k : A -> io file B) : refusing m -> refusing (iobind m k).
Proof. intros H f Hf. destruct (H f Hf) as [e He]. exists e. unfold iobind. by rewrite He. Qed.

Lemma maperr_refusing {A} g (m : io file A) : refusing m -> refusing (iomaperr g m).
Proof. intros H f Hf. destruct (H f Hf) as [e He]. exists (g e). unfold iomaperr. by rewrite He. Qed.

Lemma write_locked_refusing o b : refusing (write_locked_at o b).
Proof. apply bind_refusing, fseek_refusing. Qed.

(** ** A bufio.Writer on a closed file *)

Definition shut (f : file) (b : bwriter file) : Prop := bw_w b = f.

Lemma flush_shut f b : f_closed f = true -> shut f b ->
  shut f (fst (bw_flush fwrite b)) /\
  (bw_buf b <> [] \/ bw_err b <> None -> exists e, snd (bw_flush fwrite b) = Err e).
Proof.
  destruct b as [w buf er]. unfold shut. cbn [bw_w bw_buf bw_err]. intros Hf ->. unfold bw_flush. cbn [bw_w bw_buf bw_err].
  destruct er as [e|]; [by eauto|]. destruct buf as [|x buf].
  - split; [done|]. by intros [?|?].
  - rewrite fwrite_shut by done. cbn. eauto.
Qed.

(** Afterwards something is buffered or the error is remembered. *)
Lemma write_loop_shut f size fuel : f_closed f = true -> forall nn p b, shut f b ->
  let '(b', (_, e)) := bw_write_loop fwrite size fuel nn p b in
  shut f b' /\ (bw_buf b <> [] \/ bw_err b <> None \/ p <> [] -> bw_buf b' <> [] \/ bw_err b' <> None \/ e <> None).
Proof.
  intros Hf. induction fuel as [|fuel IH]; intros nn p b Hb; cbn [bw_write_loop].
  - destruct (bw_err b) as [e|] eqn:Ee; [split; [done|]; intros _; by right; right|].
    destruct (_ <=? _)%nat; [|split; [done|intros _; by right; right]].
    unfold shut in *. cbn. split; [done|]. intros [H|[H|H]]; [|done|]; left; destruct (bw_buf b), p; done.
  - destruct (bw_err b) as [e|] eqn:Ee; [split; [done|]; intros _; by right; right|].
    destruct (_ <=? _)%nat eqn:El.
    { unfold shut in *. cbn. split; [done|]. intros [H|[H|H]]; [|done|]; left; destruct (bw_buf b), p; done. }
    destruct (bw_buf b) as [|x buf] eqn:Eb.
    + unfold shut in Hb. rewrite Hb, fwrite_shut by done.
      specialize (IH (nn + 0)%nat (drop 0 p) (BWriter f [] (Some EClosed)) eq_refl).
      destruct (bw_write_loop _ _ _ _ _ _) as [b' [? e]]. destruct IH as [H1 H2]. split; [done|]. intros _. apply H2. by right; left.
    + destruct (flush_shut f (BWriter (bw_w b) ((x :: buf) ++ take (size - length (x :: buf)) p) None) Hf Hb) as [H1 H2].
      destruct H2 as [e2 H2]; [by left|].
      destruct (bw_flush _ _) as [b2 o2] eqn:E2. cbn [fst snd] in *.
      assert (Hs : bw_err b2 <> None).
      { unfold bw_flush in E2. cbn [bw_err bw_buf bw_w] in E2. unfold shut in Hb. rewrite Hb, fwrite_shut in E2 by done.
        cbn in E2. by injection E2 as <- _. }
      specialize (IH (nn + (size - length (x :: buf)))%nat (drop (size - length (x :: buf)) p) b2 H1).
      destruct (bw_write_loop _ _ _ _ _ _) as [b' [? e]]. destruct IH as [H3 H4]. split; [done|]. intros _. apply H4. by right; left.
Qed.

(** A call on a bufio.Writer that keeps the closed file. *)
Definition inert_bw {A} (m : io (bwriter file) A) : Prop :=
  forall f b, f_closed f = true -> shut f b -> shut f (fst (m b)).
(** ... that, when it succeeds, leaves something to be flushed. *)
Definition leaves {A} (m : io (bwriter file) A) : Prop :=
  forall f b, f_closed f = true -> shut f b ->
  match m b with (b', Ret _) => bw_buf b' <> [] \/ bw_err b' <> None | (_, Err _) => True | _ => False end.
(** ... that does so if something had been left before. *)
Definition keeps {A} (m : io (bwriter file) A) : Prop :=
  forall f b, f_closed f = true -> shut f b -> bw_buf b <> [] \/ bw_err b <> None ->
  match m b with (b', Ret _) => bw_buf b' <> [] \/ bw_err b' <> None | (_, Err _) => True | _ => False end.

Lemma leaves_keeps {A} (m : io (bwriter file) A) : leaves m -> keeps m.
Proof. intros H f b Hf Hb _. by eapply H. Qed.

Lemma inert_bw_bind {A B} (m : io (bwriter file) A) (k : A -> io (bwriter file) B) :
  inert_bw m -> (forall a, inert_bw (k a)) -> inert_bw (iobind m k).
Proof.
  intros Hm Hk f b Hf Hb. unfold iobind. pose proof (Hm f b Hf Hb) as H.
  destruct (m b) as [b' [a|e| |]]; try done. by apply Hk.
Qed.

Lemma inert_bw_maperr {A} g (m : io (bwriter file) A) : inert_bw m -> inert_bw (iomaperr g m).
Proof. intros Hm f b Hf Hb. unfold iomaperr. pose proof (Hm f b Hf Hb) as H. by destruct (m b) as [b' []]. Qed.

Lemma keeps_maperr {A} g (m : io (bwriter file) A) : keeps m -> keeps (iomaperr g m).
Proof. intros Hm f b Hf Hb Hn. unfold iomaperr. pose proof (Hm f b Hf Hb Hn) as H. by destruct (m b) as [b' []]. Qed.
Lemma leaves_maperr {A} g (m : io (bwriter file) A) : leaves m -> leaves (iomaperr g m).
Proof. intros Hm f b Hf Hb. unfold iomaperr. pose proof (Hm f b Hf Hb) as H. by destruct (m b) as [b' []]. Qed.

Lemma leaves_bind {A B} (m : io (bwriter file) A) (k : A -> io (bwriter file) B) :
  inert_bw m -> leaves m -> (forall a, keeps (k a)) -> leaves (iobind m k).
Proof.
  intros Hi Hm Hk f b Hf Hb. unfold iobind. pose proof (Hm f b Hf Hb) as H. pose proof (Hi f b Hf Hb) as H'.
  destruct (m b) as [b' [a|e| |]]; try done. by eapply Hk.
Qed.

Lemma inert_bw_write size bs : inert_bw (write_all (bw_write fwrite size) bs).
Proof.
  intros f b Hf Hb. unfold write_all, bw_write.
  pose proof (write_loop_shut f size (length bs + 2) Hf 0 bs b Hb) as H.
  destruct (bw_write_loop _ _ _ _ _ _) as [b' [n e]]. by destruct H.
Qed.

Lemma leaves_write size bs : bs <> [] -> leaves (write_all (bw_write fwrite size) bs).
Proof.
  intros Hn f b Hf Hb. unfold write_all, bw_write.
  pose proof (write_loop_shut f size (length bs + 2) Hf 0 bs b Hb) as H.
  destruct (bw_write_loop _ _ _ _ _ _) as [b' [n e]]. destruct H as [_ H], e as [e|]; [done|].
  destruct H as [H|[H|H]]; [by right; right|by left|by right|done].
Qed.

Lemma inert_bw_flush : inert_bw (bw_flush fwrite).
Proof. intros f b Hf Hb. by apply flush_shut. Qed.

(** Writing something and flushing is refused. *)
Lemma bufio_refusing {A} g (m : io (bwriter file) A) :
  inert_bw m -> leaves m -> refusing (with_bufio (iobind m (fun _ => iomaperr g (bw_flush fwrite)))).
Proof.
  intros Hi Hm f Hf. unfold with_bufio, iobind, iomaperr.
  pose proof (Hi f (new_bwriter f) Hf eq_refl) as H1. pose proof (Hm f (new_bwriter f) Hf eq_refl) as H2.
  destruct (m (new_bwriter f)) as [b [a|e| |]]; try done.
  - cbn [fst] in H1. destruct (flush_shut f b Hf H1) as [H3 H4]. destruct (H4 H2) as [e He].
    destruct (bw_flush fwrite b) as [b' o]. cbn [fst snd] in *. subst o. unfold shut in H3. rewrite H3. eauto.
  - cbn [fst] in H1. unfold shut in H1. rewrite H1. eauto.
Qed.

Lemma header_parts size (h : dheader) :
  inert_bw (d_write_header (bw_write fwrite size) h) /\ leaves (d_write_header (bw_write fwrite size) h).
Proof.
  unfold d_write_header, write_uint. split.
  - repeat (apply inert_bw_bind; [apply inert_bw_write|intros _]). apply inert_bw_write.
  - apply leaves_bind; [apply inert_bw_write|by apply leaves_write|intros _].
    apply leaves_keeps, leaves_bind; [apply inert_bw_write|by apply leaves_write|intros _].
    by apply leaves_keeps, leaves_write.
Qed.

(** ** The delta storage *)

Lemma flush_header_refused bsz s : f_closed (ds_file s) = true ->
  exists e, flush_header bsz s = (s, Err e).
Proof.
  intros Hf. unfold flush_header, on_dfile.
  set (hdr := DHeader _ _ _).
  assert (H : refusing (run ignore (fseek delta_prefix_len SeekStart);
    with_bufio (
      run iomaperr (fun _ => EMsg "failed to write header") (d_write_header (bw_write fwrite bsz) hdr);
      iomaperr (fun _ => EMsg "failed to flush buffer") (bw_flush fwrite)))).
  { intros f Hc. unfold iobind at 1, ignore. destruct (fseek_refusing delta_prefix_len SeekStart f Hc) as [e ->]. cbn [fst].
    apply bufio_refusing; [apply inert_bw_maperr, header_parts|apply leaves_maperr, header_parts|done]. }
  destruct (H (ds_file s) Hf) as [e ->]. exists e. by destruct s.
Qed.

Lemma d_flush_refused bsz sh s : f_closed (ds_file s) = true -> exists e, d_flush bsz sh s = (s, Err e).
Proof.
  intros Hf. unfold d_flush, iobind, iomaperr. destruct (flush_header_refused bsz s Hf) as [e ->]. eauto.
Qed.

Lemma d_close_refused bsz sh s : f_closed (ds_file s) = true -> exists e, d_close bsz sh s = (s, Err e).
Proof.
  intros Hf. unfold d_close. unfold iobind at 1. unfold iomaperr at 1. destruct (d_flush_refused bsz sh s Hf) as [e ->]. eauto.
Qed.

Lemma d_close_closes bsz sh s s' : d_close bsz sh s = (s', Ret tt) -> f_closed (ds_file s') = true.
Proof.
  unfold d_close, iobind, iomaperr. destruct (d_flush bsz sh s) as [s1 [[]|e| |]]; try done.
  destruct (on_dfile (d_write_locked false) s1) as [s2 [[]|e| |]]; try done.
  unfold on_dfile. pose proof (fclose_closed (ds_file s2)) as H. destruct (fclose (ds_file s2)) as [f' [[]|e| |]]; intros E; try done. by injection E as <-.
Qed.

Lemma d_add_file op u i s : ds_file (d_add op u i s) = ds_file s.
Proof. unfold d_add. by destruct (replace_delta _ _ _). Qed.

Lemma find_rev_app item l d : id_item d = item -> find_delta item (rev (l ++ [d])) = Some (id_op d).
Proof. intros H. rewrite rev_app_distr. cbn. by rewrite H, Z.eqb_refl. Qed.

(** ** The index storage *)

Lemma i_close_refused bsz sh s : is_closer s = true -> f_closed (is_file s) = true ->
  exists e, i_close bsz sh s = (s, Err e).
Proof.
  intros Hc Hf. unfold i_close. rewrite Hc.
  assert (H : exists e, (run closing true (i_save_header bsz false (is_map s) true);
     run closing true (i_save_entries bsz sh (is_map s)); fclose) (is_file s) = (is_file s, Err e)).
  { unfold iobind at 1, closing at 1, i_save_header, iobind at 1, closing at 1, iomaperr at 1.
    destruct (fseek_refusing index_prefix_len SeekStart (is_file s) Hf) as [e ->].
    unfold close_if. rewrite (fclose_shut (is_file s) Hf). rewrite (fclose_shut (is_file s) Hf). eauto. }
  destruct H as [e ->]. exists e. destruct s. cbn in *. by rewrite Hc.
Qed.
