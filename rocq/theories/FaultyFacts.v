(** Proofs about buffered writing to a file whose calls may fail: what reached the file is
    a prefix of what was written, all of it if the last Flush reported no error. *)
From Verif Require Import Base GoIO GoIOFacts.

(** The file without the failures that are to come. *)
Definition quiet (f : file) : file := File (f_kind f) (f_data f) (f_pos f) (f_closed f) [] (f_log f).

Lemma quiet_fput bs f : quiet (fput bs f) = fput bs (quiet f).
Proof. by destruct bs. Qed.

Lemma quiet_id f : f_env f = [] -> quiet f = f.
Proof. destruct f. cbn. by intros ->. Qed.

Lemma quiet_next f : quiet (snd (next_fault f)) = quiet f /\ f_closed (snd (next_fault f)) = f_closed f.
Proof. unfold next_fault. destruct f as [k d p c [|x e] l]; done. Qed.

Lemma fwrite_faulty bs f : f_closed f = false ->
  exists f' n e, fwrite bs f = (f', (n, e)) /\ f_closed f' = false /\ (n <= length bs)%nat /\
    quiet f' = fput (take n bs) (quiet f) /\ (e = None -> n = length bs).
Proof.
  intros Hc. unfold fwrite. rewrite Hc. destruct (quiet_next f) as [Hq Hc'].
  destruct (next_fault f) as [x f1]. cbn [snd] in *. destruct x as [|k].
  - exists (fput bs f1), (length bs), None. split; [done|].
    split; [rewrite fput_closed; congruence|]. split; [done|].
    split; [|done]. by rewrite quiet_fput, Hq, firstn_all.
  - exists (fput (take k bs) f1), (length (take k bs)), (Some EInjected). split; [done|].
    split; [rewrite fput_closed; congruence|]. split; [rewrite take_length; lia|].
    split; [|done]. rewrite quiet_fput, Hq. f_equal. rewrite take_length.
    destruct (decide (k <= length bs)%nat).
    + by rewrite Nat.min_l.
    + rewrite Nat.min_r, firstn_all by lia. by rewrite take_ge by lia.
Qed.

Definition wok (b : bwriter file) : Prop := bw_err b = None /\ f_closed (bw_w b) = false.

(** [j] of the bytes that were buffered in [b] or written to it since have reached the
    file of [b']. *)
Definition reached (b : bwriter file) (bs : list byte) (j : nat) (b' : bwriter file) : Prop :=
  f_closed (bw_w b') = false /\ quiet (bw_w b') = fput (take j (bw_buf b ++ bs)) (quiet (bw_w b)).

Definition moved b bs b' : Prop :=
  bw_err b' = None /\ exists j, reached b bs j b' /\ bw_buf b' = drop j (bw_buf b ++ bs).
Definition torn b bs b' : Prop := exists j, reached b bs j b'.

(** [m] writes [bs], or fails on the way. *)
Definition faulty (m : io (bwriter file) unit) (bs : list byte) : Prop :=
  forall b, wok b -> exists b', (m b = (b', Ret tt) /\ moved b bs b') \/
    (exists e, m b = (b', Err e) /\ torn b bs b').

Lemma moved_ok b bs b' : moved b bs b' -> wok b'.
Proof. intros (He & j & [Hc _] & _). done. Qed.

Lemma take_take_drop {A} j k (l l2 : list A) :
  exists i, take j l ++ take k (drop j l ++ l2) = take i (l ++ l2).
Proof.
  destruct (decide (j <= length l)%nat) as [Hj | Hj].
  - exists (j + k)%nat. transitivity (take (j + k) ((take j l ++ drop j l) ++ l2)); [|by rewrite take_drop]. rewrite <- app_assoc.
    rewrite (firstn_app (j + k) (take j l)). rewrite (take_ge (take j l)) by (rewrite take_length; lia).
    f_equal. rewrite take_length, Nat.min_l by done. f_equal. lia.
  - exists (length l + k)%nat. rewrite (take_ge l), drop_ge by lia. cbn [app].
    rewrite (firstn_app (length l + k) l), (take_ge l) by lia. f_equal. f_equal. lia.
Qed.

Lemma reached_trans b bs1 b1 bs2 k b2 : moved b bs1 b1 -> reached b1 bs2 k b2 ->
  exists j, reached b (bs1 ++ bs2) j b2.
Proof.
  intros (_ & j & [_ Hq] & Hb) [Hc2 Hq2]. rewrite Hb, Hq, <- fput_app in Hq2.
  destruct (take_take_drop j k (bw_buf b ++ bs1) bs2) as [i Hi]. rewrite Hi, <- app_assoc in Hq2.
  by exists i.
Qed.

Lemma moved_trans b bs1 b1 bs2 b2 : moved b bs1 b1 -> moved b1 bs2 b2 -> moved b (bs1 ++ bs2) b2.
Proof.
  intros (_ & j & [_ Hq] & Hb) (He & k & [Hc2 Hq2] & Hb2). split; [done|].
  rewrite Hb, Hq, <- fput_app in Hq2. rewrite Hb in Hb2. unfold reached. rewrite app_assoc.
  set (l := bw_buf b ++ bs1) in *. destruct (decide (j <= length l)%nat) as [Hj | Hj].
  - exists (j + k)%nat. assert (E : take (j + k) (l ++ bs2) = take j l ++ take k (drop j l ++ bs2)).
    { transitivity (take (j + k) ((take j l ++ drop j l) ++ bs2)); [by rewrite take_drop|]. rewrite <- app_assoc.
      rewrite (firstn_app (j + k) (take j l)). rewrite (take_ge (take j l)) by (rewrite take_length; lia).
      f_equal. rewrite take_length, Nat.min_l by done. f_equal. lia. }
    rewrite E. split; [done|]. rewrite Hb2, <- drop_drop. by rewrite (drop_app_le l bs2 j) by done.
  - exists (length l + k)%nat. rewrite (take_ge l), (drop_ge l) in Hq2 by lia. rewrite (drop_ge l) in Hb2 by lia.
    cbn [app] in *. split.
    + split; [done|]. rewrite Hq2. f_equal. rewrite firstn_app, (take_ge l) by lia. f_equal. f_equal. lia.
    + rewrite Hb2, <- drop_drop. by rewrite drop_app_alt.
Qed.

Lemma faulty_bind m1 bs1 m2 bs2 : faulty m1 bs1 -> faulty m2 bs2 ->
  faulty (iobind m1 (fun _ => m2)) (bs1 ++ bs2).
Proof.
  intros H1 H2 b Hb. unfold iobind. destruct (H1 b Hb) as (b1 & [[E M] | (e & E & [j [Hc Hq]])]); rewrite E.
  - destruct (H2 b1 (moved_ok _ _ _ M)) as (b2 & [[E2 M2] | (e & E2 & [k R])]); exists b2.
    + left. split; [done|]. by eapply moved_trans.
    + right. exists e. split; [done|]. destruct (reached_trans _ _ _ _ _ _ M R) as [i Hi]. by exists i.
  - exists b1. right. exists e. split; [done|].
    destruct (decide (j <= length (bw_buf b ++ bs1))%nat) as [Hj | Hj].
    + exists j. split; [done|]. rewrite Hq, app_assoc. by rewrite (take_app_le (bw_buf b ++ bs1)) by done.
    + exists (length (bw_buf b ++ bs1)). split; [done|]. rewrite Hq, app_assoc.
      rewrite (take_app_alt (bw_buf b ++ bs1)) by done. by rewrite take_ge by lia.
Qed.

Lemma faulty_ret : faulty (ioret tt) [].
Proof.
  intros b [He Hc]. exists b. left. split; [done|]. split; [done|]. exists 0%nat.
  split; [done|]. by rewrite app_nil_r.
Qed.

Lemma faulty_maperr g m bs : faulty m bs -> faulty (iomaperr g m) bs.
Proof.
  intros H b Hb. unfold iomaperr. destruct (H b Hb) as (b1 & [[E M] | (e & E & M)]); rewrite E; exists b1; [by left|].
  right. by eexists.
Qed.

(** ** bufio.Writer *)

Lemma bw_flush_faulty b : wok b ->
  exists b', (bw_flush fwrite b = (b', Ret tt) /\ bw_err b' = None /\ bw_buf b' = [] /\ f_closed (bw_w b') = false /\
      quiet (bw_w b') = fput (bw_buf b) (quiet (bw_w b))) \/
    (exists e j, bw_flush fwrite b = (b', Err e) /\ bw_err b' = Some e /\ f_closed (bw_w b') = false /\
      quiet (bw_w b') = fput (take j (bw_buf b)) (quiet (bw_w b))).
Proof.
  intros [He Hc]. unfold bw_flush. rewrite He. destruct (bw_buf b) as [|x buf] eqn:Eb.
  - exists b. left. done.
  - destruct (fwrite_faulty (x :: buf) (bw_w b) Hc) as (f' & n & e & -> & Hc' & Hn & Hq & Hall).
    destruct e as [e|].
    + eexists. right. exists e, n. split; [done|]. cbn [bw_err bw_w]. done.
    + rewrite (Hall eq_refl), Nat.ltb_irrefl. eexists. left. split; [done|]. cbn [bw_err bw_w bw_buf].
      split; [done|]. split; [done|]. split; [done|]. rewrite Hq, (Hall eq_refl). by rewrite firstn_all.
Qed.

Lemma bw_write_loop_err {W} (wr : writer W) size fuel nn p b e :
  bw_err b = Some e -> bw_write_loop wr size fuel nn p b = (b, (nn, Some e)).
Proof. intros He. destruct fuel; cbn [bw_write_loop]; by rewrite He. Qed.

Lemma bw_write_loop_faulty size : forall fuel nn p b, wok b ->
  (length p + (if bw_buf b then 0 else 1) < fuel)%nat ->
  exists b', (bw_write_loop fwrite size fuel nn p b = (b', ((nn + length p)%nat, None)) /\ moved b p b') \/
    (exists n e, bw_write_loop fwrite size fuel nn p b = (b', (n, Some e)) /\ torn b p b').
Proof.
  induction fuel as [|fuel IH]; intros nn p b [He Hc] Hf; [lia|].
  cbn [bw_write_loop]. rewrite He.
  destruct (length p <=? size - length (bw_buf b))%nat eqn:E.
  - eexists. left. split; [done|]. split; [done|]. exists 0%nat. done.
  - apply Nat.leb_gt in E. destruct (bw_buf b) as [|x buf] eqn:Eb.
    + destruct (fwrite_faulty p (bw_w b) Hc) as (f' & n & e & -> & Hc' & Hn & Hq & Hall). destruct e as [e|].
      * rewrite (bw_write_loop_err _ _ _ _ _ _ e) by done. eexists. right. eexists _, e. split; [done|].
        exists n. split; [done|]. by rewrite Eb.
      * rewrite (Hall eq_refl) in *. rewrite drop_all.
        destruct (IH (nn + length p)%nat [] (BWriter f' [] None)) as (b' & [[Eq M] | (n' & e & Eq & [k R])]).
        { done. } { cbn in *. lia. }
        -- exists b'. left. rewrite Eq. cbn [length]. rewrite Nat.add_0_r. split; [done|].
           replace p with (p ++ []) by apply app_nil_r. eapply moved_trans; [|exact M].
           split; [done|]. exists (length p). unfold reached. rewrite Eb. cbn [app bw_w bw_buf].
           split; [done|]. by rewrite drop_all.
        -- exists b'. right. exists n', e. split; [done|].
           destruct R as [Rc Rq]. exists (length p). split; [done|]. rewrite Rq, Eb. cbn [bw_buf bw_w app].
           by rewrite take_nil, fput_nil, Hq.
    + set (av := (size - length (x :: buf))%nat) in *.
      destruct (bw_flush_faulty (BWriter (bw_w b) ((x :: buf) ++ take av p) None)) as
        (b1 & [(-> & He1 & Hb1 & Hc1 & Hq1) | (e & j & -> & He1 & Hc1 & Hq1)]); [done| |].
      * destruct (IH (nn + av)%nat (drop av p) b1) as (b' & [[Eq M] | (n' & e & Eq & [k R])]).
        { done. } { rewrite Hb1, drop_length. cbn in *. lia. }
        -- exists b'. left. rewrite Eq. rewrite drop_length. split; [do 2 f_equal; lia|].
           rewrite <- (take_drop av p) at 1. eapply moved_trans; [|exact M]. split; [done|].
           exists (length ((x :: buf) ++ take av p)). unfold reached. rewrite Eb, firstn_all, drop_all. done.
        -- exists b'. right. exists n', e. split; [done|].
           rewrite <- (take_drop av p). destruct (reached_trans b (take av p) b1 (drop av p) k b') as [i Hi]; [|done|by exists i].
           split; [done|].
           exists (length ((x :: buf) ++ take av p)). unfold reached. rewrite Eb, firstn_all, drop_all. done.
      * rewrite (bw_write_loop_err _ _ _ _ _ _ e) by done. exists b1. right. eexists _, e. split; [done|].
        cbn [bw_buf bw_w] in Hq1. rewrite <- (take_drop av p).
        destruct (decide (j <= length ((x :: buf) ++ take av p))%nat).
        -- exists j. split; [done|]. rewrite Hq1, Eb, app_assoc. by rewrite (take_app_le ((x :: buf) ++ take av p)) by done.
        -- exists (length ((x :: buf) ++ take av p)). split; [done|]. rewrite Hq1, Eb, app_assoc.
           rewrite (take_app_alt ((x :: buf) ++ take av p)) by done. by rewrite take_ge by lia.
Qed.

Lemma faulty_write_all size bs : faulty (write_all (bw_write fwrite size) bs) bs.
Proof.
  intros b Hb. unfold write_all, bw_write.
  destruct (bw_write_loop_faulty size (length bs + 2) 0 bs b Hb) as (b' & [[-> M] | (n & e & -> & T)]).
  - destruct (bw_buf b); lia.
  - exists b'. by left.
  - exists b'. right. by exists e.
Qed.

Lemma faulty_write_uint size k n : faulty (write_uint (bw_write fwrite size) k n) (be_enc k n).
Proof. apply faulty_write_all. Qed.

(** ** Writing through a buffer that is flushed at the end *)

Lemma buffered_faulty (m : io (bwriter file) unit) bs g f : faulty m bs -> f_closed f = false ->
  exists f', (with_bufio (iobind m (fun _ => iomaperr g (bw_flush fwrite))) f = (f', Ret tt) /\
      f_closed f' = false /\ quiet f' = fput bs (quiet f)) \/
    (exists e j, with_bufio (iobind m (fun _ => iomaperr g (bw_flush fwrite))) f = (f', Err e) /\
      f_closed f' = false /\ quiet f' = fput (take j bs) (quiet f)).
Proof.
  intros H Hc. unfold with_bufio, iobind.
  destruct (H (new_bwriter f)) as (b1 & [[E M] | (e & E & [j [Hc1 Hq1]])]); [done| |]; rewrite E.
  - unfold iomaperr. pose proof (moved_ok _ _ _ M) as Hok. destruct M as (_ & j & [Hc1 Hq1] & Hb1). cbn [new_bwriter bw_buf bw_w app] in *.
    destruct (bw_flush_faulty b1 Hok) as (b2 & [(-> & He2 & Hb2 & Hc2 & Hq2) | (e & k & -> & He2 & Hc2 & Hq2)]).
    + exists (bw_w b2). left. split; [done|]. split; [done|]. by rewrite Hq2, Hb1, Hq1, <- fput_app, take_drop.
    + exists (bw_w b2). right. destruct (take_take_drop j k bs []) as [i Hi]. exists (g e), i. split; [done|]. split; [done|].
      rewrite Hq2, Hb1, Hq1, <- fput_app. rewrite !app_nil_r in Hi. by rewrite Hi.
  - exists (bw_w b1). right. exists e, j. done.
Qed.
