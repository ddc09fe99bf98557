(** Proofs about reading when reads may fail: what is read is what is there, or an error
    is reported. *)
From Verif Require Import Base GoIO GoIOFacts FaultyFacts.

(** A reader that gives the bytes of [rem] in their order and may fail at any time; [fr]:
    what reading leaves alone. *)
Definition flaky_reader {R F} (rd : reader R) (ok : R -> Prop) (rem : R -> list byte) (fr : R -> F) : Prop :=
  forall n r, ok r -> (0 < n)%nat -> exists r' bs e, rd n r = (r', (bs, e)) /\ ok r' /\
    (length bs <= n)%nat /\ rem r = bs ++ rem r' /\ fr r' = fr r /\ (e = None -> bs <> []).

(** [m] fails, or does what [p] does on the bytes still to come, and does not fail on them. *)
Definition maybe {R F} (ok : R -> Prop) (rem : R -> list byte) (fr : R -> F) {A}
    (m : io R A) (p : io (list byte) A) : Prop :=
  forall r, ok r -> exists r' o, m r = (r', o) /\ ok r' /\ fr r' = fr r /\
    ((exists e, o = Err e) \/ (exists a, o = Ret a /\ p (rem r) = (rem r', Ret a))).

Section maybe.
  Context {R F : Type} (ok : R -> Prop) (rem : R -> list byte) (fr : R -> F).
  Notation maybe := (maybe ok rem fr).

  Lemma maybe_ret {A} (a : A) : maybe (ioret a) (ioret a).
  Proof. intros r Hr. exists r, (Ret a). repeat (split; [done|]). right. eauto. Qed.
  Lemma maybe_fail {A} e (p : io (list byte) A) : maybe (iofail e) p.
  Proof. intros r Hr. exists r, (Err e). repeat (split; [done|]). left. eauto. Qed.

  Lemma maybe_bind {A B} (m : io R A) p (k : A -> io R B) q :
    maybe m p -> (forall a, maybe (k a) (q a)) -> maybe (iobind m k) (iobind p q).
  Proof.
    intros Hm Hk r Hr. destruct (Hm r Hr) as (r1 & o & E & Hok & Hfr & [[e ->] | (a & -> & Hp)]).
    - exists r1, (Err e). unfold iobind. rewrite E. repeat (split; [done|]). left. eauto.
    - destruct (Hk a r1 Hok) as (r2 & o2 & E2 & Hok2 & Hfr2 & H2).
      exists r2, o2. unfold iobind. rewrite E, E2, Hp. split; [done|]. split; [done|].
      split; [congruence|]. exact H2.
  Qed.

  Lemma maybe_maperr {A} g h (m : io R A) p : maybe m p -> maybe (iomaperr g m) (iomaperr h p).
  Proof.
    intros Hm r Hr. destruct (Hm r Hr) as (r1 & o & E & Hok & Hfr & [[e ->] | (a & -> & Hp)]);
      unfold iomaperr; rewrite E.
    - exists r1, (Err (g e)). repeat (split; [done|]). left. eauto.
    - exists r1, (Ret a). rewrite Hp. repeat (split; [done|]). right. eauto.
  Qed.

  Context (rd : reader R) (L : flaky_reader rd ok rem fr).

  Lemma read_full_loop_flaky n : forall fuel acc r, ok r -> (length acc <= n)%nat ->
    (n <= length acc + fuel)%nat ->
    exists r' o, read_full_loop rd fuel n acc r = (r', o) /\ ok r' /\ fr r' = fr r /\
      ((exists e, o = Err e) \/ (exists bs, o = Ret (acc ++ bs) /\ length (acc ++ bs) = n /\ rem r = bs ++ rem r')).
  Proof.
    assert (Hend : forall fuel acc r, ok r -> length acc = n ->
      exists r' o, (if (n <=? length acc)%nat then (r, Ret acc) else fuel) = (r', o) /\ ok r' /\ fr r' = fr r /\
        ((exists e, o = Err e) \/
         (exists bs, o = Ret (acc ++ bs) /\ length (acc ++ bs) = n /\ rem r = bs ++ rem r'))).
    { intros fuel acc r Hr Ha. exists r, (Ret acc). rewrite (proj2 (Nat.leb_le _ _)) by lia.
      repeat (split; [done|]). right. exists []. by rewrite app_nil_r. }
    induction fuel as [|fuel IH]; intros acc r Hr Ha Hf; cbn [read_full_loop].
    { apply Hend; [done|lia]. }
    destruct (decide (length acc = n)) as [Hn | Hn]; [by apply Hend|].
    rewrite (proj2 (Nat.leb_gt _ _)) by lia.
    destruct (L (n - length acc)%nat r Hr) as (r1 & bs & e & -> & Hok & Hlen & Hrem & Hfr & He); [lia|].
    cbv zeta. destruct e as [e|].
    - rewrite app_length. destruct (n <=? length acc + length bs)%nat eqn:E.
      + apply Nat.leb_le in E. exists r1, (Ret (acc ++ bs)). repeat (split; [done|]). right.
        exists bs. rewrite app_length. split; [done|]. split; [lia|done].
      + assert (exists e', match e with EEOF => match acc ++ bs with [] => (r1, Err e) | _ :: _ => (r1, Err EUnexpectedEOF) end
                 | _ => (r1, Err e) end = (r1, Err e' : outcome (list byte))) as [e' ->].
        { destruct e; eauto. destruct (acc ++ bs); eauto. }
        exists r1, (Err e'). repeat (split; [done|]). left. eauto.
    - assert (0 < length bs)%nat by (specialize (He eq_refl); destruct bs; cbn; [done|lia]).
      destruct (IH (acc ++ bs) r1 Hok) as (r2 & o & -> & Hok2 & Hfr2 & H2); [rewrite app_length; lia..|].
      exists r2, o. split; [done|]. split; [done|]. split; [congruence|].
      destruct H2 as [?|(bs2 & -> & Hl2 & Hrem2)]; [by left|right].
      exists (bs ++ bs2). rewrite app_assoc. split; [done|]. split; [done|].
      rewrite Hrem, Hrem2. by rewrite app_assoc.
  Qed.

  Lemma maybe_read_full n : maybe (read_full rd n) (read_full lread n).
  Proof.
    intros r Hr. destruct (read_full_loop_flaky n n [] r Hr) as (r' & o & E & Hok & Hfr & H); [cbn; lia..|].
    exists r', o. unfold read_full at 1. rewrite E. repeat (split; [done|]).
    destruct H as [?|(bs & -> & Hl & Hrem)]; [by left|right]. exists bs. split; [done|].
    rewrite Hrem. by apply read_full_app.
  Qed.

  Lemma maybe_read_uint k : maybe (read_uint rd k) (read_uint lread k).
  Proof. apply maybe_bind; [apply maybe_read_full|]. intros. apply maybe_ret. Qed.
  Lemma maybe_read_uint64s k : maybe (read_uint64s rd k) (read_uint64s lread k).
  Proof. apply maybe_bind; [apply maybe_read_full|]. intros. apply maybe_ret. Qed.

  Lemma skip_loop_flaky : forall fuel size skipped r, ok r ->
    (size - skipped <= Z.of_nat fuel)%Z -> (skipped <= size)%Z ->
    exists r' t e, skip_loop rd fuel size skipped r = (r', (t, e)) /\ ok r' /\ fr r' = fr r /\
      (e = None -> exists bs, Z.of_nat (length bs) = (size - skipped)%Z /\ rem r = bs ++ rem r').
  Proof.
    induction fuel as [|fuel IH]; intros size skipped r Hr Hf Hs; cbn [skip_loop].
    - rewrite (proj2 (Z.ltb_ge _ _)) by lia. exists r, skipped, None. repeat (split; [done|]).
      intros _. exists []. cbn. split; [lia|done].
    - destruct (skipped <? size)%Z eqn:E.
      + apply Z.ltb_lt in E. unfold chunk_size.
        destruct (L (Z.to_nat (Z.min (size - skipped) 100)) r Hr)
          as (r1 & bs & e & -> & Hok & Hlen & Hrem & Hfr & He); [lia|].
        cbv zeta. destruct e as [e|].
        * exists r1. do 2 eexists. split; [done|]. split; [done|]. split; [done|]. done.
        * assert (0 < length bs)%nat by (specialize (He eq_refl); destruct bs; cbn; [done|lia]).
          destruct (IH size (skipped + Z.of_nat (length bs))%Z r1 Hok) as (r2 & t & e & -> & Hok2 & Hfr2 & H2);
            [lia..|].
          exists r2, t, e. split; [done|]. split; [done|]. split; [congruence|].
          intros He2. destruct (H2 He2) as (bs2 & Hl2 & Hrem2). exists (bs ++ bs2).
          rewrite app_length. split; [lia|]. rewrite Hrem, Hrem2. by rewrite app_assoc.
      + apply Z.ltb_ge in E. exists r, skipped, None. repeat (split; [done|]).
        intros _. exists []. cbn. split; [lia|done].
  Qed.

  Lemma maybe_skip size : maybe (only_err (skip_reading rd size)) (only_err (skip_reading lread size)).
  Proof.
    intros r Hr. destruct (decide (size <= 0)%Z) as [Hs | Hs].
    { exists r, (Ret tt). unfold only_err. rewrite !skip_reading_nonpos by done.
      repeat (split; [done|]). right. eauto. }
    unfold only_err, skip_reading at 1. rewrite (proj2 (Z.eqb_neq size 0)) by lia.
    destruct (skip_loop_flaky (Z.to_nat size) size 0 r Hr) as (r' & t & e & -> & Hok & Hfr & H); [lia..|].
    destruct e as [e|].
    - exists r', (Err e). repeat (split; [done|]). left. eauto.
    - exists r', (Ret tt). repeat (split; [done|]). right. exists tt. split; [done|].
      destruct (H eq_refl) as (bs & Hl & Hrem).
      destruct (skip_reading_lawful lread _ _ _ lread_lawful size (rem r) I) as (l' & -> & _ & Hl' & _); [lia|].
      rewrite decide_True by (rewrite Hrem, app_length; lia). f_equal.
      rewrite Hl', Hrem. apply drop_app_alt. lia.
  Qed.
End maybe.

(** ** With a second component of the state *)

Definition maybex {R F X} (ok : R -> Prop) (rem : R -> list byte) (fr : R -> F) {A}
    (m : io (R * X) A) (p : io (list byte * X) A) : Prop :=
  forall r x, ok r -> exists r' x' o, m (r, x) = ((r', x'), o) /\ ok r' /\ fr r' = fr r /\
    ((exists e, o = Err e) \/ (exists a, o = Ret a /\ p (rem r, x) = ((rem r', x'), Ret a))).

Section maybex.
  Context {R F X : Type} (ok : R -> Prop) (rem : R -> list byte) (fr : R -> F).
  Notation maybex := (@maybex R F X ok rem fr).

  Lemma maybex_ret {A} (a : A) : maybex (ioret a) (ioret a).
  Proof. intros r x Hr. exists r, x, (Ret a). repeat (split; [done|]). right. eauto. Qed.
  Lemma maybex_fail {A} e (p : io _ A) : maybex (iofail e) p.
  Proof. intros r x Hr. exists r, x, (Err e). repeat (split; [done|]). left. eauto. Qed.

  Lemma maybex_bind {A B} (m : io (R * X) A) p (k : A -> io (R * X) B) q :
    maybex m p -> (forall a, maybex (k a) (q a)) -> maybex (iobind m k) (iobind p q).
  Proof.
    intros Hm Hk r x Hr. destruct (Hm r x Hr) as (r1 & x1 & o & E & Hok & Hfr & [[e ->] | (a & -> & Hp)]).
    - exists r1, x1, (Err e). unfold iobind. rewrite E. repeat (split; [done|]). left. eauto.
    - destruct (Hk a r1 x1 Hok) as (r2 & x2 & o2 & E2 & Hok2 & Hfr2 & H2).
      exists r2, x2, o2. unfold iobind. rewrite E, E2, Hp. split; [done|]. split; [done|].
      split; [congruence|]. exact H2.
  Qed.

  Lemma maybex_maperr {A} g h (m : io (R * X) A) p : maybex m p -> maybex (iomaperr g m) (iomaperr h p).
  Proof.
    intros Hm r x Hr. destruct (Hm r x Hr) as (r1 & x1 & o & E & Hok & Hfr & [[e ->] | (a & -> & Hp)]);
      unfold iomaperr; rewrite E.
    - exists r1, x1, (Err (g e)). repeat (split; [done|]). left. eauto.
    - exists r1, x1, (Ret a). rewrite Hp. repeat (split; [done|]). right. eauto.
  Qed.

  Lemma maybex_fst {A} (m : io R A) p : maybe ok rem fr m p -> maybex (on_fst m) (on_fst p).
  Proof.
    intros Hm r x Hr. destruct (Hm r Hr) as (r1 & o & E & Hok & Hfr & H).
    exists r1, x, o. unfold on_fst. rewrite E. repeat (split; [done|]).
    destruct H as [?|(a & -> & Hp)]; [by left|right]. exists a. by rewrite Hp.
  Qed.

  Lemma maybex_snd {A} (m : io X A) : (forall x, exists x' a, m x = (x', Ret a)) -> maybex (on_snd m) (on_snd m).
  Proof.
    intros Hm r x Hr. destruct (Hm x) as (x' & a & E). exists r, x', (Ret a). unfold on_snd. rewrite E.
    repeat (split; [done|]). right. eauto.
  Qed.
End maybex.

(** ** Files *)

Definition fopen (f : file) : Prop := f_closed f = false /\ (f_pos f <= length (f_data f))%nat.
(** All but the position and the failures to come. *)
Definition fkept (f : file) : file := fframe (quiet f).

Lemma fkept_fields f g : fkept f = fkept g ->
  f_data f = f_data g /\ f_kind f = f_kind g /\ f_closed f = f_closed g /\ f_log f = f_log g.
Proof. destruct f, g. unfold fkept, fframe, quiet, fset_pos. cbn. intros [=]. done. Qed.

Lemma fread_flaky : flaky_reader fread fopen frem fkept.
Proof.
  intros n [k d p c env log] [Hc Hp] Hn. cbn in Hc, Hp. subst c. unfold fread. cbn [f_closed].
  assert (Hgo : forall m, (m <= n)%nat -> forall e env',
    let bs := take m (drop p d) in
    fopen (File k d (p + length bs) false env' log) /\ (length bs <= n)%nat /\
    drop p d = bs ++ drop (p + length bs) d /\
    fkept (File k d (p + length bs) false env' log) = fkept (File k d p false env log) /\
    (e = @None err -> (0 < m)%nat -> drop p d <> [] -> bs <> [])).
  { intros m Hm e env' bs. assert (Hl : length bs = Nat.min m (length d - p)) by by (unfold bs; rewrite take_length, drop_length).
    split; [split; cbn; [done|lia]|]. split; [lia|]. split.
    - rewrite <- drop_drop. transitivity (bs ++ drop m (drop p d)); [by unfold bs; rewrite take_drop|].
      f_equal. unfold bs. rewrite take_length. destruct (decide (m <= length (drop p d))%nat).
      + by rewrite Nat.min_l.
      + rewrite Nat.min_r by lia. rewrite !drop_ge by lia. done.
    - split; [done|]. intros _ Hm0 Hne. unfold bs. destruct m; [lia|]. by destruct (drop p d). }
  assert (Hok : forall env', exists r' bs e,
    match k, n, drop p d with
    | KOs, O, _ => (File k d p false env' log, ([], None))
    | _, _, [] => (File k d p false env' log, ([], Some EEOF))
    | _, _, _ => (fset_pos (p + length (take n (drop p d))) (File k d p false env' log), (take n (drop p d), None))
    end = (r', (bs, e)) /\ fopen r' /\ (length bs <= n)%nat /\ frem (File k d p false env log) = bs ++ frem r' /\
    fkept r' = fkept (File k d p false env log) /\ (e = None -> bs <> [])).
  { intros env'. destruct n as [|n]; [lia|]. destruct (drop p d) as [|b t] eqn:E.
    - exists (File k d p false env' log), [], (Some EEOF). split; [by destruct k|]. split; [done|].
      split; [cbn; lia|]. split; [done|]. done.
    - destruct (Hgo (S n) ltac:(lia) None env') as (H1 & H2 & H3 & H4 & H5).
      exists (fset_pos (p + length (take (S n) (b :: t))) (File k d p false env' log)), (take (S n) (b :: t)), None.
      split; [by destruct k|]. unfold fset_pos, frem. cbn [f_kind f_data f_pos f_closed f_env f_log].
      rewrite E in *. split; [exact H1|]. split; [exact H2|]. split; [exact H3|]. split; [exact H4|]. done. }
  unfold next_fault. cbn [f_env f_kind f_data f_pos f_closed f_log].
  destruct env as [|x env].
  - exact (Hok []).
  - destruct x as [|j].
    + exact (Hok env).
    + cbn [f_pos f_data]. destruct (Hgo (Nat.min j n) ltac:(lia) (Some EInjected) env) as (H1 & H2 & H3 & H4 & _).
      do 3 eexists. split; [reflexivity|]. unfold fset_pos, frem. cbn [f_kind f_data f_pos f_closed f_env f_log].
      split; [exact H1|]. split; [exact H2|]. split; [exact H3|]. split; [exact H4|]. done.
Qed.

(** A bufio.Reader over a reader that may fail. *)
Definition br_any {R} (ok : R -> Prop) (b : breader R) : Prop := ok (br_r b).

Lemma br_read_flaky {R F} (rd : reader R) ok rem (fr : R -> F) size : (0 < size)%nat ->
  flaky_reader rd ok rem fr -> flaky_reader (br_read rd size) (br_any ok) (br_rem rem) (br_frame fr).
Proof.
  intros Hsz L n [r buf e] Hr Hn. unfold br_any, br_rem, br_frame in *. cbn [br_r br_buf br_err] in *.
  destruct n as [|n]; [lia|]. unfold br_read. cbn [br_r br_buf br_err].
  destruct buf as [|b buf].
  - destruct e as [e|].
    { exists (BReader r [] None), [], (Some e). cbn. repeat (split; [done || lia|]). done. }
    destruct (size <=? S n)%nat eqn:E.
    + destruct (L (S n) r Hr) as (r1 & bs & e & -> & Hok & Hlen & Hrem & Hfr & He); [lia|].
      exists (BReader r1 [] None), bs, e. cbn [br_r br_buf app]. done.
    + destruct (L size r Hr) as (r1 & bs & e & -> & Hok & Hlen & Hrem & Hfr & He); [lia|].
      destruct bs as [|b bs].
      * exists (BReader r1 [] None), [], e. cbn [br_r br_buf app length] in *. split; [done|]. split; [done|].
        split; [lia|]. done.
      * exists (BReader r1 (drop (S n) (b :: bs)) e), (take (S n) (b :: bs)), None.
        cbn [br_r br_buf br_err]. split; [done|]. split; [done|]. split; [rewrite take_length; lia|].
        split; [by rewrite app_assoc, take_drop|]. split; [done|]. done.
  - exists (BReader r (drop (S n) (b :: buf)) e), (take (S n) (b :: buf)), None.
    cbn [br_r br_buf br_err]. split; [done|]. split; [done|]. split; [rewrite take_length; lia|].
    split; [by rewrite app_assoc, take_drop|]. split; [done|]. done.
Qed.
