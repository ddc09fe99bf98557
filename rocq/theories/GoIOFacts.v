(** Facts about the file, reader and writer models of GoIO.v. *)
From Verif Require Import Base GoIO.

(** ** Lists *)

Lemma zeros_length n : length (zeros n) = n.
Proof. apply replicate_length. Qed.

Lemma splice_length off bs d :
  length (splice off bs d) = Nat.max (length d) (off + length bs).
Proof.
  unfold splice. rewrite !app_length, take_length, drop_length, app_length, zeros_length. lia.
Qed.

Lemma splice_lookup off bs d i :
  splice off bs d !! i =
    if decide (i < off)%nat then (d ++ zeros (off - length d)) !! i
    else if decide (i < off + length bs)%nat then bs !! (i - off)%nat else d !! i.
Proof.
  unfold splice.
  assert (Ht : length (take off (d ++ zeros (off - length d))) = off).
  { rewrite take_length, app_length, zeros_length. lia. }
  destruct (decide (i < off)%nat).
  - rewrite lookup_app_l by lia. rewrite lookup_take by lia. done.
  - rewrite lookup_app_r by lia. rewrite Ht.
    destruct (decide (i < off + length bs)%nat).
    + rewrite lookup_app_l by lia. done.
    + rewrite lookup_app_r by lia. rewrite lookup_drop. f_equal. lia.
Qed.

Lemma zeros_lookup n i : (i < n)%nat -> zeros n !! i = Some 0.
Proof. intros. by apply lookup_replicate_2. Qed.

Lemma splice_nil off d : (off <= length d)%nat -> splice off [] d = d.
Proof.
  intros. unfold splice. cbn. replace (off - length d)%nat with 0%nat by lia.
  cbn. rewrite app_nil_r, Nat.add_0_r. apply take_drop.
Qed.

Lemma splice_app off a b d :
  splice off (a ++ b) d = splice (off + length a) b (splice off a d).
Proof.
  apply list_eq. intros i. rewrite !splice_lookup, !app_length, splice_length.
  destruct (decide (i < off)%nat).
  - rewrite decide_True by lia.
    destruct (decide (i < length d)%nat).
    + rewrite lookup_app_l by lia. rewrite lookup_app_l by (rewrite splice_length; lia).
      rewrite splice_lookup, decide_True by lia. rewrite lookup_app_l by lia. done.
    + rewrite lookup_app_r by lia. rewrite zeros_lookup by lia.
      rewrite lookup_app_l by (rewrite splice_length; lia).
      rewrite splice_lookup, decide_True by lia.
      rewrite lookup_app_r by lia. rewrite zeros_lookup by lia. done.
  - destruct (decide (i < off + length a)%nat).
    + rewrite decide_True by lia.
      rewrite lookup_app_l by lia. rewrite lookup_app_l by (rewrite splice_length; lia).
      rewrite splice_lookup, decide_False, decide_True by lia. done.
    + destruct (decide (i < off + (length a + length b))%nat).
      * rewrite decide_True by lia. rewrite lookup_app_r by lia. f_equal. lia.
      * rewrite !decide_False by lia. done.
Qed.

Lemma splice_end bs d : splice (length d) bs d = d ++ bs.
Proof.
  unfold splice. rewrite Nat.sub_diag. cbn. rewrite app_nil_r, firstn_all.
  rewrite drop_ge by lia. by rewrite app_nil_r.
Qed.

Lemma splice_mid off bs a b c :
  length a = off -> length b = length bs -> splice off bs (a ++ b ++ c) = a ++ bs ++ c.
Proof.
  intros Ha Hb. unfold splice. rewrite !app_length.
  replace (off - (length a + (length b + length c)))%nat with 0%nat by lia.
  cbn. rewrite app_nil_r. rewrite take_app_alt by done. f_equal. f_equal.
  rewrite app_assoc, drop_app_alt; [done|]. rewrite app_length. lia.
Qed.

Lemma splice_prefix off bs a r : length a = off -> splice off bs (a ++ r) = a ++ bs ++ drop (length bs) r.
Proof.
  intros Ha. unfold splice. rewrite app_length. replace (off - (length a + length r))%nat with 0%nat by lia.
  rewrite app_nil_r. rewrite take_app_alt by done. do 2 f_equal.
  rewrite <- drop_drop. by rewrite drop_app_alt.
Qed.

(** ** Files *)

Lemma fput_nil f : fput [] f = f.
Proof. done. Qed.

Lemma wsets_app off a b : wsets off (a ++ b) = wsets off a ++ wsets (off + length a) b.
Proof.
  revert off. induction a as [|x a IH]; intros off; cbn.
  - by rewrite Nat.add_0_r.
  - rewrite IH. by replace (S off + length a)%nat with (off + S (length a))%nat by lia.
Qed.

Lemma wsets_length off bs : length (wsets off bs) = length bs.
Proof. revert off. induction bs as [|b bs IH]; intros off; cbn; [done|]. by rewrite IH. Qed.

Lemma fput_app a b f : fput (a ++ b) f = fput b (fput a f).
Proof.
  destruct a as [|x a]; [done|]. destruct b as [|y b].
  { by rewrite app_nil_r. }
  unfold fput at 2. unfold fput.
  destruct ((x :: a) ++ y :: b) as [|z l] eqn:E; [done|]. rewrite <- E. clear E z l.
  cbn [f_kind f_data f_pos f_closed f_env f_log].
  f_equal.
  - apply splice_app.
  - rewrite !app_length. lia.
  - by rewrite wsets_app, app_assoc.
Qed.

Lemma fput_kind bs f : f_kind (fput bs f) = f_kind f.
Proof. by destruct bs. Qed.
Lemma fput_closed bs f : f_closed (fput bs f) = f_closed f.
Proof. by destruct bs. Qed.
Lemma fput_env bs f : f_env (fput bs f) = f_env f.
Proof. by destruct bs. Qed.
Lemma fput_pos bs f : f_pos (fput bs f) = (f_pos f + length bs)%nat.
Proof. destruct bs; cbn; lia. Qed.
Lemma fput_log bs f : f_log (fput bs f) = f_log f ++ wsets (f_pos f) bs.
Proof. destruct bs; cbn; [by rewrite app_nil_r|done]. Qed.
Lemma fput_data bs f : (f_pos f <= length (f_data f))%nat ->
  f_data (fput bs f) = splice (f_pos f) bs (f_data f).
Proof. destruct bs; cbn; [|done]. intros. by rewrite splice_nil. Qed.
Lemma fput_data_cons b bs f : f_data (fput (b :: bs) f) = splice (f_pos f) (b :: bs) (f_data f).
Proof. done. Qed.

(** A file whose reads and writes all work. *)
Definition healthy (f : file) : Prop := f_closed f = false /\ f_env f = [].

Lemma fwrite_healthy bs f : healthy f -> fwrite bs f = (fput bs f, (length bs, None)).
Proof. intros [Hc He]. unfold fwrite. rewrite Hc. unfold next_fault. by rewrite He. Qed.

Lemma fput_healthy bs f : healthy f -> healthy (fput bs f).
Proof. intros [??]. split; [by rewrite fput_closed|by rewrite fput_env]. Qed.

Lemma fset_pos_healthy p f : healthy f -> healthy (fset_pos p f).
Proof. done. Qed.

Lemma fseek_start off f : healthy f -> (0 <= off)%Z ->
  f_kind f = KOs \/ (off <= Z.of_nat (length (f_data f)))%Z ->
  fseek off SeekStart f = (fset_pos (Z.to_nat off) f, Ret off).
Proof.
  intros [Hc _] Ho Hk. unfold fseek. rewrite Hc.
  destruct (f_kind f) eqn:E.
  - destruct Hk as [?|Hk]; [done|].
    rewrite (proj2 (Z.ltb_ge off 0)), (proj2 (Z.ltb_ge _ off)) by lia. done.
  - rewrite (proj2 (Z.ltb_ge off 0)) by lia. done.
Qed.

Lemma fseek_end f : healthy f ->
  fseek 0 SeekEnd f =
    (fset_pos (length (f_data f)) f, Ret (Z.of_nat (length (f_data f)))).
Proof.
  intros [Hc _]. unfold fseek. rewrite Hc, Z.add_0_r, Nat2Z.id.
  destruct (f_kind f);
    rewrite ?(proj2 (Z.ltb_ge (Z.of_nat (length (f_data f))) 0)), ?Z.ltb_irrefl by lia; done.
Qed.

Lemma fseek_cur f : healthy f -> (f_pos f <= length (f_data f))%nat ->
  fseek 0 SeekCurrent f = (f, Ret (Z.of_nat (f_pos f))).
Proof.
  intros [Hc _] Hp. unfold fseek. rewrite Hc, Z.add_0_r, Nat2Z.id.
  assert (fset_pos (f_pos f) f = f) as -> by by destruct f.
  rewrite (proj2 (Z.ltb_ge (Z.of_nat (f_pos f)) 0)) by lia.
  rewrite (proj2 (Z.ltb_ge (Z.of_nat (length (f_data f))) _)) by lia.
  by destruct (f_kind f).
Qed.

Lemma fseek_frame off w f f' o : fseek off w f = (f', o) ->
  f_kind f' = f_kind f /\ f_data f' = f_data f /\ f_closed f' = f_closed f /\
  f_env f' = f_env f /\ f_log f' = f_log f.
Proof.
  unfold fseek. destruct (f_closed f) eqn:Ec; [by intros [= <- <-]|].
  destruct (match f_kind f with KBuf => _ | KOs => _ end); by intros [= <- <-].
Qed.

(** ** Replaying the log *)

Lemma replay_app l1 l2 d : replay (l1 ++ l2) d = replay l2 (replay l1 d).
Proof. apply fold_left_app. Qed.

Lemma replay_wsets off bs d : bs <> [] \/ (off <= length d)%nat ->
  replay (wsets off bs) d = splice off bs d.
Proof.
  revert off d. induction bs as [|b bs IH]; intros off d Hor.
  - cbn. symmetry. apply splice_nil. destruct Hor; [congruence|done].
  - cbn. rewrite IH.
    + change (b :: bs) with ([b] ++ bs). rewrite splice_app. cbn.
      by replace (off + 1)%nat with (S off) by lia.
    + right. rewrite splice_length. cbn. lia.
Qed.

Lemma wsets_take k off bs : take k (wsets off bs) = wsets off (take k bs).
Proof.
  revert k off. induction bs as [|b bs IH]; intros [|k] off; cbn; [done..|]. by rewrite IH.
Qed.

(** The log explains the content. *)
Lemma fput_replay bs f : f_data (fput bs f) = replay (wsets (f_pos f) bs) (f_data f).
Proof. destruct bs; [done|]. rewrite replay_wsets by (by left). done. Qed.

(** ** Lawful readers

    [rem]: the bytes still to come; [fr]: whatever reading does not change. *)
Record lawful {R F : Type} (rd : reader R) (ok : R -> Prop) (rem : R -> list byte) (fr : R -> F)
  : Prop := {
  lawful_eof : forall n r, ok r -> (0 < n)%nat -> rem r = [] ->
    exists r', rd n r = (r', ([], Some EEOF)) /\ ok r' /\ rem r' = [] /\ fr r' = fr r;
  lawful_some : forall n r, ok r -> (0 < n)%nat -> rem r <> [] ->
    exists r' bs, rd n r = (r', (bs, None)) /\ ok r' /\ bs <> [] /\ (length bs <= n)%nat /\
      rem r = bs ++ rem r' /\ fr r' = fr r
}.

(** Readers that may also report EOF together with the last bytes. *)
Record lawful_any {R F : Type} (rd : reader R) (ok : R -> Prop) (rem : R -> list byte) (fr : R -> F)
  : Prop := {
  any_eof : forall n r, ok r -> (0 < n)%nat -> rem r = [] ->
    exists r', rd n r = (r', ([], Some EEOF)) /\ ok r' /\ rem r' = [] /\ fr r' = fr r;
  any_some : forall n r, ok r -> (0 < n)%nat -> rem r <> [] ->
    exists r' bs e, rd n r = (r', (bs, e)) /\ ok r' /\ bs <> [] /\ (length bs <= n)%nat /\
      rem r = bs ++ rem r' /\ fr r' = fr r /\ (e = None \/ e = Some EEOF /\ rem r' = [])
}.

Lemma lawful_is_any {R F} (rd : reader R) ok rem (fr : R -> F) :
  lawful rd ok rem fr -> lawful_any rd ok rem fr.
Proof.
  intros L. split; [apply L|]. intros n r Hr Hn Hne.
  destruct (lawful_some _ _ _ _ L n r Hr Hn Hne) as (r' & bs & H & Hok & Hbs & Hl & Hrem & Hfr).
  exists r', bs, None. repeat (split; [done|]). by left.
Qed.
Coercion lawful_is_any : lawful >-> lawful_any.

Lemma read_full_loop_lawful {R F} (rd : reader R) ok rem (fr : R -> F) :
  lawful_any rd ok rem fr -> forall fuel n acc r, ok r -> (n <= length acc + fuel)%nat ->
  exists r',
    read_full_loop rd fuel n acc r = (r',
      if decide (n <= length (acc ++ rem r))%nat
      then Ret (acc ++ take (n - length acc) (rem r))
      else if decide (acc ++ rem r = []) then Err EEOF else Err EUnexpectedEOF) /\
    ok r' /\ rem r' = drop (n - length acc) (rem r) /\ fr r' = fr r.
Proof.
  intros L. induction fuel as [|fuel IH]; intros n acc r Hr Hf.
  - exists r. cbn. rewrite (proj2 (Nat.leb_le n (length acc))) by lia.
    replace (n - length acc)%nat with 0%nat by lia.
    rewrite take_0, drop_0, app_nil_r, app_length.
    rewrite decide_True by lia. done.
  - cbn [read_full_loop]. destruct (n <=? length acc)%nat eqn:E.
    + apply Nat.leb_le in E. exists r.
      replace (n - length acc)%nat with 0%nat by lia.
      rewrite take_0, drop_0, app_nil_r, app_length.
      rewrite decide_True by lia. done.
    + apply Nat.leb_gt in E.
      destruct (decide (rem r = [])) as [Hnil | Hne].
      * destruct (any_eof _ _ _ _ L (n - length acc) r Hr) as (r' & -> & Hok & Hrem & Hfr); [lia|done|].
        exists r'. rewrite !app_nil_r, Hnil, Hrem, app_nil_r, drop_nil.
        rewrite (proj2 (Nat.leb_gt n (length acc))) by lia.
        rewrite decide_False by lia.
        destruct acc; [rewrite decide_True by done|rewrite decide_False by done]; done.
      * destruct (any_some _ _ _ _ L (n - length acc) r Hr)
          as (r' & bs & e & -> & Hok & Hbs & Hlen & Hrem & Hfr & He); [lia|done|].
        destruct He as [-> | [-> Hnil]].
        2:{ exists r'. rewrite Hrem, Hnil, !app_nil_r. split; [|split; [done|split; [|done]]].
            2:{ by rewrite drop_ge by lia. }
            destruct (n <=? length (acc ++ bs))%nat eqn:En.
            - apply Nat.leb_le in En. rewrite decide_True by done. rewrite app_length in En.
              by rewrite take_ge by lia.
            - apply Nat.leb_gt in En. rewrite decide_False by lia.
              destruct acc; [destruct bs; [done|]|]; by rewrite decide_False. }
        assert (0 < length bs)%nat by (destruct bs; cbn; [done|lia]).
        destruct (IH n (acc ++ bs) r' Hok) as (r'' & -> & Hok' & Hrem' & Hfr').
        { rewrite app_length. lia. }
        exists r''. rewrite Hrem.
        rewrite <- !app_assoc.
        split; [|split; [done|split; [|congruence]]].
        -- f_equal. destruct (decide (n <= _)%nat); [|done].
           rewrite app_length. rewrite take_app_ge by lia.
           do 4 f_equal. lia.
        -- rewrite Hrem', app_length. rewrite drop_app_ge by lia. f_equal. lia.
Qed.

Lemma read_full_lawful {R F} (rd : reader R) ok rem (fr : R -> F) :
  lawful_any rd ok rem fr -> forall n r, ok r ->
  exists r',
    read_full rd n r = (r',
      if decide (n <= length (rem r))%nat then Ret (take n (rem r))
      else if decide (rem r = []) then Err EEOF else Err EUnexpectedEOF) /\
    ok r' /\ rem r' = drop n (rem r) /\ fr r' = fr r.
Proof.
  intros L n r Hr. destruct (read_full_loop_lawful rd ok rem fr L n n [] r Hr) as (r' & H); [cbn; lia|].
  exists r'. cbn in H. by rewrite Nat.sub_0_r in H.
Qed.

(** The byte list itself as a reader. *)
Definition lread : reader (list byte) := fun n l =>
  match l with [] => (l, ([], Some EEOF)) | _ => (drop n l, (take n l, None)) end.

Lemma lread_lawful : lawful lread (fun _ => True) (fun l => l) (fun _ => tt).
Proof.
  split.
  - intros n r _ Hn ->. by exists [].
  - intros n r _ Hn Hr. destruct r as [|b r]; [done|].
    exists (drop n (b :: r)), (take n (b :: r)). cbn [lread].
    split; [done|]. split; [done|].
    split; [by destruct n; cbn; [lia|]|].
    split; [rewrite take_length; lia|].
    split; [by rewrite take_drop|done].
Qed.

(** [m] on a lawful reader does what [p] does on the bytes still to come. *)
Definition follows {R F} (ok : R -> Prop) (rem : R -> list byte) (fr : R -> F) {A}
    (m : io R A) (p : io (list byte) A) : Prop :=
  forall r, ok r -> exists r', m r = (r', snd (p (rem r))) /\ ok r' /\
    rem r' = fst (p (rem r)) /\ fr r' = fr r.

Section follows.
  Context {R F : Type} (ok : R -> Prop) (rem : R -> list byte) (fr : R -> F).
  Notation follows := (follows ok rem fr).

  Lemma follows_ret {A} (a : A) : follows (ioret a) (ioret a).
  Proof. intros r Hr. by exists r. Qed.
  Lemma follows_fail {A} e : follows (iofail e : io R A) (iofail e).
  Proof. intros r Hr. by exists r. Qed.
  Lemma follows_lift {A} (o : outcome A) : follows (iolift o) (iolift o).
  Proof. intros r Hr. by exists r. Qed.

  Lemma follows_bind {A B} (m : io R A) p (k : A -> io R B) q :
    follows m p -> (forall a, follows (k a) (q a)) -> follows (iobind m k) (iobind p q).
  Proof.
    intros Hm Hk r Hr. destruct (Hm r Hr) as (r' & Hmr & Hok & Hrem & Hfr).
    unfold iobind. rewrite Hmr. destruct (p (rem r)) as [l o] eqn:E. cbn in *.
    destruct o; cbn; try (exists r'; done).
    destruct (Hk a r' Hok) as (r'' & Hkr & Hok' & Hrem' & Hfr').
    exists r''. rewrite Hkr. rewrite Hrem in *. split; [done|]. split; [done|].
    split; [done|]. congruence.
  Qed.

  Lemma follows_maperr {A} g (m : io R A) p : follows m p -> follows (iomaperr g m) (iomaperr g p).
  Proof.
    intros Hm r Hr. destruct (Hm r Hr) as (r' & Hmr & Hok & Hrem & Hfr).
    unfold iomaperr. rewrite Hmr. destruct (p (rem r)) as [l o] eqn:E. cbn in *.
    exists r'. destruct o; done.
  Qed.

  Lemma follows_read_full rd n : lawful_any rd ok rem fr -> follows (read_full rd n) (read_full lread n).
  Proof.
    intros L r Hr. destruct (read_full_lawful rd ok rem fr L n r Hr) as (r' & Hm & Hok & Hrem & Hfr).
    destruct (read_full_lawful lread _ _ _ lread_lawful n (rem r) I) as (l' & Hl & _ & Hrem' & _).
    exists r'. rewrite Hl, Hm. cbn. by rewrite Hrem, Hrem'.
  Qed.

  Lemma follows_read_uint rd k : lawful_any rd ok rem fr -> follows (read_uint rd k) (read_uint lread k).
  Proof.
    intros L. apply follows_bind; [by apply follows_read_full|]. intros. apply follows_ret.
  Qed.

  Lemma follows_read_uint64s rd k : lawful_any rd ok rem fr -> follows (read_uint64s rd k) (read_uint64s lread k).
  Proof.
    intros L. apply follows_bind; [by apply follows_read_full|]. intros. apply follows_ret.
  Qed.
End follows.

(** Reading from a list. *)
Lemma read_full_list n l :
  read_full lread n l = (drop n l,
    if decide (n <= length l)%nat then Ret (take n l)
    else if decide (l = []) then Err EEOF else Err EUnexpectedEOF).
Proof.
  destruct (read_full_lawful lread _ _ _ lread_lawful n l I) as (r' & H & _ & Hr & _).
  rewrite H. by rewrite <- Hr.
Qed.

Lemma read_full_app n a b : length a = n -> read_full lread n (a ++ b) = (b, Ret a).
Proof.
  intros. rewrite read_full_list, decide_True by (rewrite app_length; lia).
  by rewrite drop_app_alt, take_app_alt by done.
Qed.

Lemma read_full_short n l : (length l < n)%nat ->
  read_full lread n l = ([], Err (if decide (l = []) then EEOF else EUnexpectedEOF)).
Proof.
  intros. rewrite read_full_list, decide_False by lia.
  rewrite drop_ge by lia. by destruct (decide (l = [])).
Qed.

(** ** Files as readers *)

Definition frem (f : file) : list byte := drop (f_pos f) (f_data f).
(** Everything but the position. *)
Definition fframe (f : file) : file := fset_pos 0 f.

Lemma fread_lawful : lawful fread healthy frem fframe.
Proof.
  split.
  - intros n f [Hc He] Hn Hr. exists f. unfold fread, next_fault. rewrite Hc, He.
    unfold frem in Hr. rewrite Hr. destruct n; [lia|]. by destruct (f_kind f).
  - intros n f [Hc He] Hn Hr. unfold frem in *.
    exists (fset_pos (f_pos f + length (take n (drop (f_pos f) (f_data f)))) f),
           (take n (drop (f_pos f) (f_data f))).
    unfold fread, next_fault. rewrite Hc, He.
    destruct (drop (f_pos f) (f_data f)) as [|b l] eqn:E; [done|].
    destruct n as [|n]; [lia|].
    split; [by destruct (f_kind f)|].
    split; [done|]. split; [done|]. split; [rewrite take_length; lia|].
    split; [|done].
    cbn [fset_pos f_pos f_data]. rewrite <- drop_drop, E.
    rewrite take_length. destruct (decide (S n <= length (b :: l))%nat).
    + rewrite Nat.min_l by done. by rewrite take_drop.
    + rewrite Nat.min_r by lia. rewrite drop_all, take_ge by lia. by rewrite app_nil_r.
Qed.

(** ** bufio.Reader *)

Definition br_rem {R} (rem : R -> list byte) (b : breader R) : list byte := br_buf b ++ rem (br_r b).
Definition br_ok {R} (ok : R -> Prop) (b : breader R) : Prop := ok (br_r b) /\ br_err b = None.
Definition br_frame {R F} (fr : R -> F) (b : breader R) : F := fr (br_r b).

Lemma br_read_lawful {R F} (rd : reader R) ok rem (fr : R -> F) size :
  (0 < size)%nat -> lawful rd ok rem fr ->
  lawful (br_read rd size) (br_ok ok) (br_rem rem) (br_frame fr).
Proof.
  intros Hsz L. unfold br_ok, br_rem, br_frame. split.
  - intros n [r buf e] [Hr He] Hn Hrem. cbn in *. subst e. apply app_eq_nil in Hrem as [-> Hrem].
    destruct n as [|n]; [lia|]. cbn [br_read br_buf br_r br_err].
    destruct (size <=? S n)%nat.
    + destruct (lawful_eof _ _ _ _ L (S n) r Hr) as (r' & -> & Hok & Hrem' & Hfr); [lia|done|].
      exists (BReader r' [] None). done.
    + destruct (lawful_eof _ _ _ _ L size r Hr) as (r' & -> & Hok & Hrem' & Hfr); [lia|done|].
      exists (BReader r' [] None). done.
  - intros n [r buf e] [Hr He] Hn Hrem. cbn in *. subst e.
    destruct n as [|n]; [lia|].
    destruct buf as [|b buf].
    + cbn [br_read br_buf br_r br_err]. cbn in Hrem.
      destruct (size <=? S n)%nat eqn:E.
      * destruct (lawful_some _ _ _ _ L (S n) r Hr) as (r' & bs & -> & Hok & Hbs & Hlen & Hrem' & Hfr); [lia|done|].
        exists (BReader r' [] None), bs. done.
      * apply Nat.leb_gt in E.
        destruct (lawful_some _ _ _ _ L size r Hr) as (r' & bs & -> & Hok & Hbs & Hlen & Hrem' & Hfr); [lia|done|].
        destruct bs as [|b bs]; [done|].
        exists (BReader r' (drop (S n) (b :: bs)) None), (take (S n) (b :: bs)).
        split; [done|]. split; [done|]. split; [done|].
        split; [rewrite take_length; lia|]. split; [|done].
        cbn [app br_buf br_r]. by rewrite app_assoc, take_drop.
    + exists (BReader r (drop (S n) (b :: buf)) None), (take (S n) (b :: buf)).
      split; [done|]. split; [done|]. split; [done|].
      split; [rewrite take_length; lia|]. split; [|done].
      cbn [br_buf br_r]. by rewrite app_assoc, take_drop.
Qed.

Lemma bfread_lawful size : (0 < size)%nat ->
  lawful (br_read fread size) (br_ok healthy) (br_rem frem) (br_frame fframe).
Proof. intros. apply br_read_lawful; [done|apply fread_lawful]. Qed.

(** ** Lawful writers

    [img]: the file as it will be once everything written has reached it. *)
Definition lawfulw {W} (wr : writer W) (ok : W -> Prop) (img : W -> file) : Prop :=
  forall bs w, ok w -> exists w', wr bs w = (w', (length bs, None)) /\ ok w' /\
    img w' = fput bs (img w).

Lemma fwrite_lawful : lawfulw fwrite healthy (fun f => f).
Proof.
  intros bs f Hf. exists (fput bs f). rewrite fwrite_healthy by done.
  split; [done|]. split; [by apply fput_healthy|done].
Qed.

Definition bw_ok {W} (ok : W -> Prop) (b : bwriter W) : Prop := ok (bw_w b) /\ bw_err b = None.
Definition bw_img {W} (img : W -> file) (b : bwriter W) : file := fput (bw_buf b) (img (bw_w b)).

Lemma bw_flush_lawful {W} (wr : writer W) ok img b :
  lawfulw wr ok img -> bw_ok ok b ->
  exists w', bw_flush wr b = (BWriter w' [] None, Ret tt) /\ ok w' /\ img w' = bw_img img b.
Proof.
  intros L [Hok He]. unfold bw_flush, bw_img. rewrite He.
  destruct b as [w buf e]; cbn [bw_w bw_err bw_buf] in *; subst e.
  destruct buf as [|x buf].
  - exists w. done.
  - destruct (L (x :: buf) w Hok) as (w' & -> & Hok' & Himg).
    cbn [bw_buf bw_w]. rewrite Nat.ltb_irrefl. exists w'. done.
Qed.

Lemma bw_write_loop_lawful {W} (wr : writer W) ok img size :
  lawfulw wr ok img -> forall fuel nn p b, bw_ok ok b ->
  (length p + (if bw_buf b then 0 else 1) < fuel)%nat ->
  exists b', bw_write_loop wr size fuel nn p b = (b', ((nn + length p)%nat, None)) /\
    bw_ok ok b' /\ bw_img img b' = fput p (bw_img img b).
Proof.
  intros L. induction fuel as [|fuel IH]; intros nn p [w buf e] [Hok He] Hf; cbn in Hok, He; subst e; [lia|].
  cbn [bw_write_loop bw_err bw_buf bw_w].
  destruct (length p <=? size - length buf)%nat eqn:E.
  - exists (BWriter w (buf ++ p) None). split; [done|]. split; [done|].
    unfold bw_img. cbn. by rewrite fput_app.
  - apply Nat.leb_gt in E. destruct buf as [|x buf].
    + destruct (L p w Hok) as (w' & -> & Hok' & Himg).
      rewrite drop_all. destruct (IH (nn + length p)%nat [] (BWriter w' [] None)) as (b' & -> & Hok'' & Himg'').
      { done. } { cbn in *. lia. }
      exists b'. cbn [length]. rewrite Nat.add_0_r. split; [done|]. split; [done|].
      rewrite Himg''. unfold bw_img. cbn. by rewrite Himg.
    + set (av := (size - length (x :: buf))%nat) in *.
      destruct (bw_flush_lawful wr ok img (BWriter w ((x :: buf) ++ take av p) None) L) as (w' & -> & Hok' & Himg').
      { done. }
      destruct (IH (nn + av)%nat (drop av p) (BWriter w' [] None)) as (b' & -> & Hok'' & Himg'').
      { done. } { rewrite drop_length. cbn in *. lia. }
      exists b'. rewrite drop_length. split; [do 2 f_equal; lia|]. split; [done|].
      rewrite Himg''. unfold bw_img in *. cbn [bw_buf bw_w] in *. rewrite fput_nil, Himg'.
      rewrite <- !fput_app. by rewrite <- app_assoc, take_drop.
Qed.

Lemma bw_write_lawful {W} (wr : writer W) ok img size :
  lawfulw wr ok img -> lawfulw (bw_write wr size) (bw_ok ok) (bw_img img).
Proof.
  intros L bs b Hb. unfold bw_write.
  destruct (bw_write_loop_lawful wr ok img size L (length bs + 2) 0 bs b Hb) as (b' & H1 & H2 & H3).
  { destruct (bw_buf b); lia. }
  exists b'. rewrite H1. done.
Qed.

(** [m] makes the file as if [bs] had been written to it, and succeeds. *)
Definition emits {W} (ok : W -> Prop) (img : W -> file) {A} (m : io W A) (bs : list byte) (a : A)
  : Prop :=
  forall w, ok w -> exists w', m w = (w', Ret a) /\ ok w' /\ img w' = fput bs (img w).

Section emits.
  Context {W : Type} (ok : W -> Prop) (img : W -> file).
  Notation emits := (emits ok img).

  Lemma emits_ret {A} (a : A) : emits (ioret a) [] a.
  Proof. intros w Hw. by exists w. Qed.

  Lemma emits_bind {A B} (m : io W A) bs a (k : A -> io W B) cs b :
    emits m bs a -> emits (k a) cs b -> emits (iobind m k) (bs ++ cs) b.
  Proof.
    intros Hm Hk w Hw. destruct (Hm w Hw) as (w' & Hmw & Hok & Himg).
    destruct (Hk w' Hok) as (w'' & Hkw & Hok' & Himg').
    exists w''. unfold iobind. rewrite Hmw. split; [done|]. split; [done|].
    by rewrite Himg', Himg, fput_app.
  Qed.

  Lemma emits_maperr {A} g (m : io W A) bs a : emits m bs a -> emits (iomaperr g m) bs a.
  Proof.
    intros Hm w Hw. destruct (Hm w Hw) as (w' & Hmw & ?). exists w'. unfold iomaperr. by rewrite Hmw.
  Qed.

  Lemma emits_write_all wr bs : lawfulw wr ok img -> emits (write_all wr bs) bs tt.
  Proof.
    intros L w Hw. destruct (L bs w Hw) as (w' & H & ?). exists w'. unfold write_all. by rewrite H.
  Qed.

  Lemma emits_write_uint wr k n : lawfulw wr ok img -> emits (write_uint wr k n) (be_enc k n) tt.
  Proof. apply emits_write_all. Qed.

  Lemma emits_write_uint64s wr l : lawfulw wr ok img ->
    emits (write_uint64s wr l) (concat (map (be_enc 8) l)) tt.
  Proof. apply emits_write_all. Qed.
End emits.

(** ** WriteZeros and SkipReading *)

Lemma zeros_app a b : zeros a ++ zeros b = zeros (a + b).
Proof. unfold zeros. by rewrite replicate_add. Qed.

Lemma write_zeros_loop_lawful {W} (wr : writer W) ok img :
  lawfulw wr ok img -> forall fuel size total w, ok w -> (size - total <= Z.of_nat fuel)%Z ->
  exists w', write_zeros_loop wr fuel size total w = (w', (Z.max total size, None)) /\ ok w' /\
    img w' = fput (zeros (Z.to_nat (size - total))) (img w).
Proof.
  intros L. induction fuel as [|fuel IH]; intros size total w Hw Hf; cbn [write_zeros_loop].
  - rewrite (proj2 (Z.ltb_ge _ _)) by lia. exists w.
    replace (Z.to_nat (size - total)) with 0%nat by lia.
    replace (Z.max total size) with total by lia. done.
  - destruct (total <? size)%Z eqn:E.
    + apply Z.ltb_lt in E. unfold chunk_size.
      destruct (L (zeros (Z.to_nat (Z.min (size - total) 100))) w Hw) as (w' & -> & Hok & Himg).
      rewrite zeros_length.
      destruct (IH size (total + Z.of_nat (Z.to_nat (Z.min (size - total) 100)))%Z w' Hok)
        as (w'' & -> & Hok' & Himg'); [lia|].
      exists w''. split; [do 2 f_equal; lia|]. split; [done|].
      rewrite Himg', Himg, <- fput_app, zeros_app. do 2 f_equal. lia.
    + apply Z.ltb_ge in E. exists w.
      replace (Z.to_nat (size - total)) with 0%nat by lia.
      replace (Z.max total size) with total by lia. done.
Qed.

Lemma write_zeros_lawful {W} (wr : writer W) ok img :
  lawfulw wr ok img -> forall size w, ok w ->
  exists w', write_zeros wr size w = (w', (Z.max 0 size, None)) /\ ok w' /\
    img w' = fput (zeros (Z.to_nat size)) (img w).
Proof.
  intros L size w Hw. unfold write_zeros.
  destruct (write_zeros_loop_lawful wr ok img L (Z.to_nat size) size 0 w Hw) as (w' & H); [lia|].
  exists w'. by rewrite Z.sub_0_r in H.
Qed.

Lemma emits_write_zeros {W} (wr : writer W) ok img size :
  lawfulw wr ok img -> emits ok img (only_err (write_zeros wr size)) (zeros (Z.to_nat size)) tt.
Proof.
  intros L w Hw. destruct (write_zeros_lawful wr ok img L size w Hw) as (w' & H & ?).
  exists w'. unfold only_err. by rewrite H.
Qed.

Lemma skip_loop_lawful {R F} (rd : reader R) ok rem (fr : R -> F) :
  lawful rd ok rem fr -> forall fuel size skipped r, ok r ->
  (size - skipped <= Z.of_nat fuel)%Z -> (skipped <= size)%Z ->
  exists r', skip_loop rd fuel size skipped r =
      (r', (Z.min size (skipped + Z.of_nat (length (rem r))),
            if decide (size <= skipped + Z.of_nat (length (rem r)))%Z then None else Some EEOF)) /\
    ok r' /\ rem r' = drop (Z.to_nat (size - skipped)) (rem r) /\ fr r' = fr r.
Proof.
  intros L. induction fuel as [|fuel IH]; intros size skipped r Hr Hf Hs; cbn [skip_loop].
  - rewrite (proj2 (Z.ltb_ge _ _)) by lia. exists r.
    replace (Z.to_nat (size - skipped)) with 0%nat by lia.
    rewrite decide_True by lia. rewrite drop_0.
    replace (Z.min _ _) with skipped by lia. done.
  - destruct (skipped <? size)%Z eqn:E.
    + apply Z.ltb_lt in E. unfold chunk_size.
      destruct (decide (rem r = [])) as [Hnil | Hne].
      * destruct (lawful_eof _ _ _ _ L (Z.to_nat (Z.min (size - skipped) 100)) r Hr)
          as (r' & -> & Hok & Hrem & Hfr); [lia|done|].
        exists r'. rewrite Hnil, Hrem, drop_nil. cbn [length].
        rewrite decide_False by lia. split; [|done]. f_equal. f_equal. lia.
      * destruct (lawful_some _ _ _ _ L (Z.to_nat (Z.min (size - skipped) 100)) r Hr)
          as (r' & bs & -> & Hok & Hbs & Hlen & Hrem & Hfr); [lia|done|].
        assert (0 < length bs)%nat by (destruct bs; cbn; [done|lia]).
        destruct (IH size (skipped + Z.of_nat (length bs))%Z r' Hok) as (r'' & -> & Hok' & Hrem' & Hfr');
          [lia|lia|].
        exists r''. rewrite Hrem. rewrite app_length.
        split; [|split; [done|split; [|congruence]]].
        -- f_equal. rewrite Nat2Z.inj_add.
           rewrite <- !Z.add_assoc. done.
        -- rewrite Hrem'. rewrite drop_app_ge by lia. f_equal. lia.
    + apply Z.ltb_ge in E. exists r.
      replace (Z.to_nat (size - skipped)) with 0%nat by lia.
      rewrite decide_True by lia. rewrite drop_0.
      replace (Z.min _ _) with skipped by lia. done.
Qed.

Lemma skip_reading_lawful {R F} (rd : reader R) ok rem (fr : R -> F) :
  lawful rd ok rem fr -> forall size r, ok r -> (0 <= size)%Z ->
  exists r', skip_reading rd size r =
      (r', (Z.min size (Z.of_nat (length (rem r))),
            if decide (size <= Z.of_nat (length (rem r)))%Z then None else Some EEOF)) /\
    ok r' /\ rem r' = drop (Z.to_nat size) (rem r) /\ fr r' = fr r.
Proof.
  intros L size r Hr Hs. unfold skip_reading. destruct (size =? 0)%Z eqn:E.
  - apply Z.eqb_eq in E as ->. exists r. rewrite decide_True by lia. rewrite drop_0.
    by replace (Z.min _ _) with 0%Z by lia.
  - destruct (skip_loop_lawful rd ok rem fr L (Z.to_nat size) size 0 r Hr) as (r' & H); [lia|lia|].
    exists r'. by rewrite Z.sub_0_r in H.
Qed.

Lemma skip_reading_nonpos {R} (rd : reader R) size r : (size <= 0)%Z ->
  skip_reading rd size r = (r, (0%Z, None)).
Proof.
  intros. unfold skip_reading. destruct (size =? 0)%Z; [done|].
  destruct (Z.to_nat size); cbn; rewrite (proj2 (Z.ltb_ge _ _)) by lia; done.
Qed.

Lemma follows_skip {R F} (rd : reader R) ok rem (fr : R -> F) size : lawful rd ok rem fr ->
  follows ok rem fr (only_err (skip_reading rd size)) (only_err (skip_reading lread size)).
Proof.
  intros L r Hr. unfold only_err.
  destruct (decide (0 <= size)%Z).
  - destruct (skip_reading_lawful rd ok rem fr L size r Hr) as (r' & -> & Hok & Hrem & Hfr); [done|].
    destruct (skip_reading_lawful lread _ _ _ lread_lawful size (rem r) I) as (l' & -> & _ & Hrem' & _); [done|].
    exists r'. split; [done|]. split; [done|]. cbn. by rewrite Hrem, Hrem'.
  - rewrite !skip_reading_nonpos by lia. by exists r.
Qed.

(** ** Plain writers *)

(** The file a plain writer would have produced. *)
Definition out_file (d : list byte) : file := File KOs d (length d) false [] (wsets 0 d).

Lemma fput_out d bs : fput bs (out_file d) = out_file (d ++ bs).
Proof.
  destruct bs as [|b bs]; [by rewrite app_nil_r|].
  unfold fput, out_file. cbn [f_kind f_pos f_data f_closed f_env f_log].
  rewrite splice_end, wsets_app, app_length. done.
Qed.

Lemma working_writer_lawful {W} (wr : writer W) (out : W -> list byte) :
  (forall bs w, exists w', wr bs w = (w', (length bs, None)) /\ out w' = out w ++ bs) ->
  lawfulw wr (fun _ => True) (fun w => out_file (out w)).
Proof.
  intros H bs w _. destruct (H bs w) as (w' & Hw & Ho). exists w'.
  split; [done|]. split; [done|]. by rewrite fput_out, Ho.
Qed.

Lemma emits_out {W A} (out : W -> list byte) (m : io W A) bs a w :
  emits (fun _ => True) (fun w => out_file (out w)) m bs a ->
  exists w', m w = (w', Ret a) /\ out w' = out w ++ bs.
Proof.
  intros H. destruct (H w I) as (w' & Hm & _ & Hi). exists w'. split; [done|].
  rewrite fput_out in Hi. by injection Hi.
Qed.

Lemma fread_lawful_in :
  lawful fread (fun f => healthy f /\ (f_pos f <= length (f_data f))%nat) frem fframe.
Proof.
  split.
  - intros n f [Hh Hp] Hn Hr.
    destruct (lawful_eof _ _ _ _ fread_lawful n f Hh Hn Hr) as (f' & H & Hok & Hr' & Hf).
    exists f'. split; [done|]. split; [|done]. split; [done|].
    unfold fread, next_fault in H. destruct Hh as [Hc He]. rewrite Hc, He in H.
    unfold frem in Hr. rewrite Hr in H. destruct n; [lia|].
    destruct (f_kind f); by injection H as <-.
  - intros n f [Hh Hp] Hn Hr.
    destruct (lawful_some _ _ _ _ fread_lawful n f Hh Hn Hr) as (f' & bs & H & Hok & Hrest).
    exists f', bs. split; [done|]. split; [|done]. split; [done|].
    unfold fread, next_fault in H. destruct Hh as [Hc He]. rewrite Hc, He in H.
    unfold frem in Hr. destruct (drop (f_pos f) (f_data f)) as [|b l] eqn:E; [done|].
    assert (Hl : length (drop (f_pos f) (f_data f)) = length (b :: l)) by by rewrite E.
    rewrite drop_length in Hl. destruct n; [lia|].
    destruct (f_kind f); injection H as <- _; cbn [fset_pos f_pos f_data];
      pose proof (take_length l n); cbn [length] in *; lia.
Qed.

Lemma fclose_data f : f_data (fst (fclose f)) = f_data f.
Proof. unfold fclose, next_fault. by destruct (f_closed f), (f_kind f), (f_env f). Qed.
Lemma fclose_closed f : f_closed (fst (fclose f)) = true.
Proof. unfold fclose, next_fault. by destruct (f_closed f) eqn:E, (f_kind f), (f_env f). Qed.
Lemma fclose_log f : f_log (fst (fclose f)) = f_log f.
Proof. unfold fclose, next_fault. by destruct (f_closed f), (f_kind f), (f_env f). Qed.
Lemma fclose_healthy f : healthy f ->
  fclose f = (File (f_kind f) (f_data f) (f_pos f) true (f_env f) (f_log f), Ret tt).
Proof. destruct f as [k d p c env l]. intros [Hc He]. cbn in Hc, He. subst. by destruct k. Qed.

(** ** Skipping with a reader that may report EOF with the last bytes *)
Lemma skip_loop_any {R F} (rd : reader R) ok rem (fr : R -> F) :
  lawful_any rd ok rem fr -> forall fuel size skipped r, ok r ->
  (size - skipped <= Z.of_nat fuel)%Z -> (skipped <= size)%Z ->
  exists r' x, skip_loop rd fuel size skipped r =
      (r', (Z.min size (skipped + Z.of_nat (length (rem r))), x)) /\
    ok r' /\ rem r' = drop (Z.to_nat (size - skipped)) (rem r) /\ fr r' = fr r /\
    (x = None \/ x = Some EEOF) /\
    (size < skipped + Z.of_nat (length (rem r)) \/ size = skipped -> x = None)%Z /\
    (skipped + Z.of_nat (length (rem r)) < size -> x = Some EEOF)%Z.
Proof.
  intros L. induction fuel as [|fuel IH]; intros size skipped r Hr Hf Hs; cbn [skip_loop].
  - rewrite (proj2 (Z.ltb_ge _ _)) by lia. exists r, None.
    replace (Z.to_nat (size - skipped)) with 0%nat by lia. rewrite drop_0.
    replace (Z.min _ _) with skipped by lia. repeat (split; [by auto|]). lia.
  - destruct (skipped <? size)%Z eqn:E.
    + apply Z.ltb_lt in E. unfold chunk_size.
      destruct (decide (rem r = [])) as [Hnil | Hne].
      * destruct (any_eof _ _ _ _ L (Z.to_nat (Z.min (size - skipped) 100)) r Hr)
          as (r' & -> & Hok & Hrem & Hfr); [lia|done|].
        exists r', (Some EEOF). rewrite Hnil, Hrem, drop_nil. cbn [length].
        split; [do 2 f_equal; lia|]. repeat (split; [by auto|]). split; [lia|done].
      * destruct (any_some _ _ _ _ L (Z.to_nat (Z.min (size - skipped) 100)) r Hr)
          as (r' & bs & e & -> & Hok & Hbs & Hlen & Hrem & Hfr & He); [lia|done|].
        assert (0 < length bs)%nat by (destruct bs; cbn; [done|lia]).
        destruct He as [-> | [-> Hnil]].
        2:{ exists r', (Some EEOF). rewrite Hrem, Hnil, app_nil_r.
            split; [do 2 f_equal; lia|]. split; [done|]. split; [by rewrite drop_ge by lia|].
            split; [done|]. split; [by right|]. split; [lia|done]. }
        destruct (IH size (skipped + Z.of_nat (length bs))%Z r' Hok) as (r'' & x & -> & Hok' & Hrem' & Hfr' & H1 & H2 & H3);
          [lia|lia|].
        exists r'', x. rewrite Hrem. rewrite app_length.
        split; [do 2 f_equal; lia|]. split; [done|].
        split; [rewrite Hrem'; rewrite drop_app_ge by lia; f_equal; lia|].
        split; [congruence|]. split; [done|]. split; [intros ?; apply H2; lia|intros ?; apply H3; lia].
    + apply Z.ltb_ge in E. exists r, None.
      replace (Z.to_nat (size - skipped)) with 0%nat by lia. rewrite drop_0.
      replace (Z.min _ _) with skipped by lia. repeat (split; [by auto|]). lia.
Qed.

Lemma skip_reading_any {R F} (rd : reader R) ok rem (fr : R -> F) :
  lawful_any rd ok rem fr -> forall n r, ok r ->
  exists r' x, skip_reading rd (Z.of_nat n) r = (r', (Z.of_nat (n `min` length (rem r)), x)) /\
    ok r' /\ rem r' = drop n (rem r) /\ fr r' = fr r /\ (x = None \/ x = Some EEOF) /\
    ((n < length (rem r))%nat \/ n = 0%nat -> x = None) /\ ((length (rem r) < n)%nat -> x = Some EEOF).
Proof.
  intros L n r Hr. unfold skip_reading. destruct (Z.of_nat n =? 0)%Z eqn:E.
  - apply Z.eqb_eq in E. assert (n = 0%nat) as -> by lia. exists r, None. rewrite drop_0.
    repeat (split; [by auto|]). lia.
  - apply Z.eqb_neq in E.
    destruct (skip_loop_any rd ok rem fr L (Z.to_nat (Z.of_nat n)) (Z.of_nat n) 0 r Hr)
      as (r' & x & -> & Hok & Hrem & Hfr & H1 & H2 & H3); [lia|lia|].
    exists r', x. rewrite Z.sub_0_r, Nat2Z.id in Hrem. split; [do 2 f_equal; lia|].
    repeat (split; [done|]). split; [intros ?; apply H2; lia|intros ?; apply H3; lia].
Qed.

(** ** A bufio.Reader over such a reader *)

Definition bra_ok {R} (ok : R -> Prop) (rem : R -> list byte) (b : breader R) : Prop :=
  ok (br_r b) /\ (br_err b = None \/ br_err b = Some EEOF /\ rem (br_r b) = []).

(** What a bufio.Reader does; an error comes with bytes only when the request is not
    smaller than the buffer. *)
Lemma br_read_step {R F} (rd : reader R) ok rem (fr : R -> F) size :
  (0 < size)%nat -> lawful_any rd ok rem fr ->
  forall n b, bra_ok ok rem b -> (0 < n)%nat ->
  exists b' bs e, br_read rd size n b = (b', (bs, e)) /\ bra_ok ok rem b' /\
    br_rem rem b = bs ++ br_rem rem b' /\ br_frame fr b' = br_frame fr b /\ (length bs <= n)%nat /\
    ((br_rem rem b = [] /\ bs = [] /\ e = Some EEOF) \/
     (bs <> [] /\ (e = None \/ e = Some EEOF /\ br_rem rem b' = [] /\ (size <= n)%nat))).
Proof.
  intros Hsz L n [r buf er] [Hr Her] Hn. unfold br_rem, br_frame. cbn [br_r br_buf br_err] in *.
  unfold br_read. cbn [br_r br_buf br_err]. destruct n as [|n]; [lia|].
  destruct buf as [|x buf].
  - destruct Her as [-> | [-> Hnil]].
    2:{ eexists _, _, _. split; [done|]. cbn [br_r br_buf br_err]. rewrite Hnil.
        split; [by split; [|left]|]. split; [done|]. split; [done|]. split; [cbn; lia|]. by left. }
    destruct (decide (rem r = [])) as [Hnil | Hne].
    + assert (E : forall m, (0 < m)%nat -> exists r', rd m r = (r', ([], Some EEOF)) /\ ok r' /\ rem r' = [] /\ fr r' = fr r).
      { intros m Hm. by apply (any_eof _ _ _ _ L). }
      destruct (size <=? S n)%nat.
      * destruct (E (S n)) as (r' & -> & Hok & Hrem & Hfr); [lia|].
        eexists _, _, _. split; [done|]. cbn [br_r br_buf br_err]. rewrite Hnil, Hrem.
        split; [by split; [|left]|]. split; [done|]. split; [done|]. split; [cbn; lia|]. by left.
      * destruct (E size) as (r' & -> & Hok & Hrem & Hfr); [lia|].
        eexists _, _, _. split; [done|]. cbn [br_r br_buf br_err]. rewrite Hnil, Hrem.
        split; [by split; [|left]|]. split; [done|]. split; [done|]. split; [cbn; lia|]. by left.
    + destruct (size <=? S n)%nat eqn:E.
      * apply Nat.leb_le in E.
        destruct (any_some _ _ _ _ L (S n) r Hr) as (r' & bs & e & -> & Hok & Hbs & Hlen & Hrem & Hfr & He); [lia|done|].
        eexists _, _, _. split; [done|]. cbn [br_r br_buf br_err].
        split; [by split; [|left]|]. split; [done|]. split; [done|]. split; [done|]. right. split; [done|].
        destruct He as [-> | [-> He]]; [by left|right]. done.
      * destruct (any_some _ _ _ _ L size r Hr) as (r' & bs & e & -> & Hok & Hbs & Hlen & Hrem & Hfr & He); [lia|done|].
        destruct bs as [|y bs]; [done|].
        eexists _, _, _. split; [done|]. cbn [br_r br_buf br_err].
        split; [by split|]. split; [by rewrite app_assoc, take_drop|]. split; [done|].
        split; [rewrite take_length; lia|]. right. split; [done|]. by left.
  - eexists _, _, _. split; [done|]. cbn [br_r br_buf br_err].
    split; [by split|]. split; [by rewrite app_assoc, take_drop|]. split; [done|].
    split; [rewrite take_length; lia|]. right. split; [done|]. by left.
Qed.

Lemma br_read_any {R F} (rd : reader R) ok rem (fr : R -> F) size :
  (0 < size)%nat -> lawful_any rd ok rem fr ->
  lawful_any (br_read rd size) (bra_ok ok rem) (br_rem rem) (br_frame fr).
Proof.
  intros Hsz L. split; intros n b Hb Hn Hrem;
    destruct (br_read_step rd ok rem fr size Hsz L n b Hb Hn) as (b' & bs & e & -> & Hb' & Ha & Hf & Hl & H).
  - rewrite Hrem in Ha. symmetry in Ha. apply app_eq_nil in Ha as [-> Ha].
    destruct H as [(_ & _ & ->) | [? _]]; [|done]. by exists b'.
  - destruct H as [(? & _) | [Hne He]]; [done|]. exists b', bs, e. repeat (split; [done|]).
    destruct He as [? | (? & ? & _)]; auto.
Qed.

Lemma br_read_small {R F} (rd : reader R) ok rem (fr : R -> F) size :
  (100 < size)%nat -> lawful_any rd ok rem fr ->
  lawful (fun n => br_read rd size (n `min` 100)%nat) (bra_ok ok rem) (br_rem rem) (br_frame fr).
Proof.
  intros Hsz L. split; intros n b Hb Hn Hrem;
    destruct (br_read_step rd ok rem fr size ltac:(lia) L (n `min` 100)%nat b Hb ltac:(lia)) as (b' & bs & e & -> & Hb' & Ha & Hf & Hl & H).
  - rewrite Hrem in Ha. symmetry in Ha. apply app_eq_nil in Ha as [-> Ha].
    destruct H as [(_ & _ & ->) | [? _]]; [|done]. by exists b'.
  - destruct H as [(? & _) | [Hne He]]; [done|]. exists b', bs.
    destruct He as [-> | (_ & _ & ?)]; [|lia]. repeat (split; [done|]). split; [lia|]. done.
Qed.

Lemma skip_loop_small {R} (rd : reader R) fuel : forall size skipped r,
  skip_loop (fun n => rd (n `min` 100)%nat) fuel size skipped r = skip_loop rd fuel size skipped r.
Proof.
  induction fuel as [|fuel IH]; intros size skipped r; cbn [skip_loop]; [done|].
  destruct (skipped <? size)%Z; [|done].
  replace (Z.to_nat (Z.min (size - skipped) chunk_size) `min` 100)%nat
    with (Z.to_nat (Z.min (size - skipped) chunk_size)) by (unfold chunk_size; lia).
  destruct (rd _ r) as [r' [bs [e|]]]; [done|]. apply IH.
Qed.

Lemma skip_reading_small {R} (rd : reader R) size r :
  skip_reading (fun n => rd (n `min` 100)%nat) size r = skip_reading rd size r.
Proof. unfold skip_reading. destruct (size =? 0)%Z; [done|]. apply skip_loop_small. Qed.
