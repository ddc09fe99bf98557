(** Facts about the index protocol and storage. *)
From Verif Require Import Base GoIO Lock Index SpecFile SpecLock SpecCrash SpecIndex IndexSession GoIOFacts CodecFacts
  LockFacts DeltaFacts DeltaStoreFacts.

(** ** Encodings *)

Definition enc_iheader (h : iheader) : list byte :=
  be_enc 1 (ih_version h) ++ be_enc 1 (ih_locked h) ++ be_enc 4 (ih_count h).
Definition ipair (x : Z * Z) : list byte := be_enc 8 (fst x) ++ be_enc 8 (snd x).
Definition ipairs (l : list (Z * Z)) : list byte := concat (map ipair l).

Lemma index_image_enc locked l : index_image locked l =
  index_magic ++ [1; locked] ++ be_enc 4 (Z.of_nat (length l)) ++ ipairs l.
Proof. reflexivity. Qed.

Lemma ipair_length x : length (ipair x) = 16%nat.
Proof. unfold ipair. by rewrite app_length, !be_enc_length. Qed.
Lemma ipairs_length l : length (ipairs l) = (16 * length l)%nat.
Proof.
  unfold ipairs. induction l as [|x l IH]; cbn [map concat length]; [done|].
  rewrite app_length, IH, ipair_length. lia.
Qed.
Lemma ipairs_cons x l : ipairs (x :: l) = ipair x ++ ipairs l.
Proof. done. Qed.

Section emit.
  Context {W : Type} (wr : writer W) (ok : W -> Prop) (img : W -> file).
  Hypothesis L : lawfulw wr ok img.

  Lemma emits_iprefix : emits ok img (i_write_prefix wr) index_prefix tt.
  Proof. by apply emits_write_all. Qed.

  Lemma emits_iheader h : emits ok img (i_write_header wr h) (enc_iheader h) tt.
  Proof.
    unfold i_write_header, enc_iheader.
    eapply emits_bind; [by apply emits_write_uint|].
    eapply emits_bind; [by apply emits_write_uint|].
    by apply emits_write_uint.
  Qed.

  Lemma emits_ientry k v : emits ok img (i_write_entry wr (IEntry k v)) (ipair (k, v)) tt.
  Proof.
    unfold i_write_entry, ipair. cbn [ie_id ie_index fst snd].
    eapply emits_bind; [by apply emits_write_uint|]. by apply emits_write_uint.
  Qed.

  Lemma emits_maperr {A} g (m : io W A) bs a : emits ok img m bs a -> emits ok img (iomaperr g m) bs a.
  Proof.
    intros H w Hw. destruct (H w Hw) as (w' & E & ?). exists w'. unfold iomaperr. by rewrite E.
  Qed.

  Lemma emits_ientries l : emits ok img (i_write_entries wr l) (ipairs l) tt.
  Proof.
    induction l as [|[k v] l IH]; cbn [i_write_entries]; [apply emits_ret|].
    rewrite ipairs_cons. eapply emits_bind; [apply emits_maperr, emits_ientry|]. apply IH.
  Qed.
End emit.

Section follow.
  Context {R F : Type} (rd : reader R) (ok : R -> Prop) (rem : R -> list byte) (fr : R -> F).
  Hypothesis L : lawful_any rd ok rem fr.

  Lemma follows_iprefix : follows ok rem fr (i_read_prefix rd) (i_read_prefix lread).
  Proof.
    apply follows_bind; [by apply follows_read_full|]. intros bs.
    destruct (bool_decide _); [apply follows_ret|apply follows_fail].
  Qed.

  Lemma follows_iheader : follows ok rem fr (i_read_header rd) (i_read_header lread).
  Proof. apply follows_bind; [by apply follows_read_full|]. intros bs. apply follows_ret. Qed.

  Lemma follows_ientry : follows ok rem fr (i_read_entry rd) (i_read_entry lread).
  Proof.
    unfold i_read_entry.
    repeat (apply follows_bind; [by apply follows_read_uint|]; intros ?). apply follows_ret.
  Qed.

  Lemma follows_ientries n : forall m, follows ok rem fr (i_load_entries rd n m) (i_load_entries lread n m).
  Proof.
    induction n as [|n IH]; intros m; cbn [i_load_entries]; [apply follows_ret|].
    apply follows_bind; [apply follows_maperr, follows_ientry|]. intros e. apply IH.
  Qed.
End follow.

(** ** Decoding from a byte list *)

Lemma iread_prefix_ok rest : i_read_prefix lread (index_magic ++ rest) = (rest, Ret tt).
Proof.
  unfold i_read_prefix, iobind. rewrite read_full_app by done. cbn.
  by rewrite bool_decide_true.
Qed.

Lemma iread_prefix_bad l : take 6 l <> index_magic ->
  exists l' e, i_read_prefix lread l = (l', Err e).
Proof.
  intros H. unfold i_read_prefix, iobind. change (length index_prefix) with 6%nat.
  rewrite read_full_list. destruct (decide (6 <= length l)%nat).
  - rewrite bool_decide_false by (intros E; apply H; exact E). cbn. eauto.
  - destruct (decide _); eauto.
Qed.

Lemma iread_header_app b0 b1 c rest : length c = 4%nat ->
  i_read_header lread (b0 :: b1 :: c ++ rest) = (rest, Ret (IHeader b0 b1 (be_dec c))).
Proof.
  intros Hc. unfold i_read_header, iobind. change (Z.to_nat index_header_size) with 6%nat.
  change (b0 :: b1 :: c ++ rest) with ((b0 :: b1 :: c) ++ rest).
  rewrite read_full_app by (cbn; lia). unfold ioret.
  change (take 4 (drop 2 (b0 :: b1 :: c))) with (take 4 c).
  change (take 1 (b0 :: b1 :: c)) with [b0]. change (take 1 (drop 1 (b0 :: b1 :: c))) with [b1].
  rewrite !be_dec_1. rewrite take_ge by lia. done.
Qed.

Lemma iread_header_short l : (length l < 6)%nat -> exists e, i_read_header lread l = ([], Err e).
Proof.
  intros. unfold i_read_header, iobind. change (Z.to_nat index_header_size) with 6%nat.
  rewrite read_full_short by done. eauto.
Qed.

Lemma iread_entry_app k v rest : is_u64 k -> is_u64 v ->
  i_read_entry lread (ipair (k, v) ++ rest) = (rest, Ret (IEntry k v)).
Proof.
  intros Hk Hv. unfold i_read_entry, iobind, ipair. cbn [fst snd]. rewrite <- app_assoc.
  rewrite read_uint_app by apply be_enc_length. rewrite read_uint_app by apply be_enc_length.
  unfold ioret. rewrite !be_dec_enc by (rewrite pow256_8; done). done.
Qed.

Lemma iread_entry_short l : (length l < 16)%nat -> exists l' e, i_read_entry lread l = (l', Err e).
Proof.
  intros Hl. unfold i_read_entry, iobind.
  destruct (read_uint_cases 8 l) as [[H1 ->] | (H1 & e & ->)]; [|eauto].
  destruct (read_uint_cases 8 (drop 8 l)) as [[H2 ->] | (H2 & e & ->)]; [|eauto].
  rewrite drop_length in *. lia.
Qed.

Lemma iread_entry_long l : (16 <= length l)%nat -> exists e, i_read_entry lread l = (drop 16 l, Ret e).
Proof.
  intros Hl. unfold i_read_entry, iobind.
  destruct (read_uint_cases 8 l) as [[H1 ->] | (H1 & e & ->)]; [|lia].
  destruct (read_uint_cases 8 (drop 8 l)) as [[H2 ->] | (H2 & e & ->)]; [|rewrite drop_length in *; lia].
  rewrite drop_drop. by eexists.
Qed.

(** The map of a list of pairs, later ones winning. *)
Definition imap (m : gmap Z Z) (l : list (Z * Z)) : gmap Z Z :=
  fold_left (fun m x => <[fst x := snd x]> m) l m.

Definition pair_typed (x : Z * Z) : Prop := is_u64 (fst x) /\ is_u64 (snd x).

Lemma iload_entries_app l : Forall pair_typed l -> forall m tail,
  i_load_entries lread (length l) m (ipairs l ++ tail) = (tail, Ret (imap m l)).
Proof.
  induction 1 as [|[k v] l [Hk Hv] _ IH]; intros m tail; [done|].
  cbn [i_load_entries length]. unfold iobind, iomaperr. rewrite ipairs_cons, <- app_assoc.
  rewrite iread_entry_app by done. by rewrite IH.
Qed.

Lemma iload_entries_short n : forall m l, (length l < 16 * n)%nat ->
  exists l' e, i_load_entries lread n m l = (l', Err e).
Proof.
  induction n as [|n IH]; intros m l Hl; [lia|].
  cbn [i_load_entries]. unfold iobind, iomaperr.
  destruct (decide (length l < 16)%nat) as [Hs | Hs].
  - destruct (iread_entry_short l Hs) as (l' & e & ->). eauto.
  - destruct (iread_entry_long l) as [e ->]; [lia|]. apply IH. rewrite drop_length. lia.
Qed.

(** ** load *)

Lemma breader_reading rsz : (0 < rsz)%nat ->
  lawful (br_read fread rsz) (br_ok reading_ok) (br_rem frem) (br_frame fframe).
Proof. intros. apply br_read_lawful; [done|apply fread_lawful_in]. Qed.

Lemma fframe_pos f g : fframe f = fframe g -> f = fset_pos (f_pos f) g.
Proof. destruct f, g. unfold fframe, fset_pos. cbn. congruence. Qed.

Lemma i_load_bad rsz f : (0 < rsz)%nat -> healthy f ->
  take 6 (f_data f) <> index_magic \/ (length (f_data f) < 12)%nat \/
  (exists x, f_data f !! 7%nat = Some x /\ x <> 0) ->
  exists p e, i_load rsz f = (fset_pos p f, Err e).
Proof.
  intros Hrsz Hh Hbad. unfold i_load, iobind at 1.
  change 0 with (Z.of_nat 0) at 1. rewrite fseek_start_nat; [|done|right; lia].
  unfold with_breader. set (b0 := new_breader _).
  assert (Hb0 : br_ok reading_ok b0) by (split; [split; [done|cbn; lia]|done]).
  assert (Hrem0 : br_rem frem b0 = f_data f) by (unfold br_rem, frem; cbn; by rewrite drop_0).
  unfold iobind at 1, iomaperr at 1.
  destruct (follows_iprefix _ _ _ _ (breader_reading rsz Hrsz) b0 Hb0) as (b1 & E1 & Hb1 & Hrem1 & Hfr1).
  rewrite Hrem0 in *. rewrite E1.
  assert (Hf1 : exists p, br_r b1 = fset_pos p f).
  { exists (f_pos (br_r b1)). apply fframe_pos. unfold br_frame in Hfr1. rewrite Hfr1. done. }
  destruct (decide (take 6 (f_data f) = index_magic)) as [Hm | Hm].
  2:{ destruct (iread_prefix_bad (f_data f) Hm) as (l' & e & ->). cbn [snd]. destruct Hf1 as [p Hp].
      eexists p, _. by rewrite Hp. }
  assert (Hdr : exists r, f_data f = index_magic ++ r)
    by (exists (drop 6 (f_data f)); by rewrite <- Hm, take_drop).
  destruct Hdr as [r Hr]. rewrite Hr, iread_prefix_ok in *. cbn [fst snd] in *.
  unfold iobind at 1, iomaperr at 1.
  destruct (follows_iheader _ _ _ _ (breader_reading rsz Hrsz) b1 Hb1) as (b2 & E2 & Hb2 & Hrem2 & Hfr2).
  rewrite Hrem1 in *. rewrite E2.
  assert (Hf2 : exists p, br_r b2 = fset_pos p f).
  { exists (f_pos (br_r b2)). apply fframe_pos. unfold br_frame in Hfr1, Hfr2. rewrite Hfr2, Hfr1. done. }
  destruct Hf2 as [p Hp]. exists p.
  destruct (decide (length r < 6)%nat) as [Hs | Hs].
  { destruct (iread_header_short _ Hs) as (e & ->). cbn [snd]. eexists. by rewrite Hp. }
  destruct Hbad as [? | [Hl | (x & Hx & Hne)]]; [done|rewrite app_length in Hl; cbn in Hl; lia|].
  assert (Hd : exists v c rest, r = v :: x :: c ++ rest /\ length c = 4%nat).
  { rewrite lookup_app_r in Hx by (cbn; lia). cbn [length index_magic Nat.sub] in Hx.
    destruct r as [|v [|y l]]; [done|done|]. injection Hx as ->.
    exists v, (take 4 l), (drop 4 l). split; [by rewrite take_drop|]. rewrite take_length. cbn in Hs. lia. }
  destruct Hd as (v & c & rest & -> & Hc). rewrite iread_header_app by done. cbn [snd ih_locked].
  rewrite (proj2 (Z.eqb_neq x 0)) by done. cbn [negb]. unfold iofail. eexists. by rewrite Hp.
Qed.

Lemma i_load_ok rsz f v c body : (0 < rsz)%nat -> healthy f -> length c = 4%nat ->
  f_data f = index_magic ++ v :: 0 :: c ++ body ->
  exists p, (p <= length (f_data f))%nat /\
    i_load rsz f =
      (File (f_kind f) (index_magic ++ v :: 1 :: c ++ body) p false [] (f_log f ++ [WSet 7 1]),
       snd (i_load_entries lread (Z.to_nat (be_dec c)) ∅ body)).
Proof.
  intros Hrsz Hh Hc Hd. unfold i_load, iobind at 1.
  change 0 with (Z.of_nat 0) at 1. rewrite fseek_start_nat; [|done|right; lia].
  unfold with_breader. set (b0 := new_breader _).
  assert (Hb0 : br_ok reading_ok b0) by (split; [split; [done|cbn; lia]|done]).
  assert (Hrem0 : br_rem frem b0 = f_data f) by (unfold br_rem, frem; cbn; by rewrite drop_0).
  unfold iobind at 1, iomaperr at 1.
  destruct (follows_iprefix _ _ _ _ (breader_reading rsz Hrsz) b0 Hb0) as (b1 & E1 & Hb1 & Hrem1 & Hfr1).
  rewrite Hrem0, Hd, iread_prefix_ok in *. rewrite E1. cbn [fst snd] in *.
  unfold iobind at 1, iomaperr at 1.
  destruct (follows_iheader _ _ _ _ (breader_reading rsz Hrsz) b1 Hb1) as (b2 & E2 & Hb2 & Hrem2 & Hfr2).
  rewrite Hrem1, iread_header_app in * by done. rewrite E2. cbn [fst snd ih_locked ih_count] in *.
  change (negb (0 =? 0)) with false. cbv iota.
  assert (Hf2 : br_r b2 = fset_pos (f_pos (br_r b2)) f).
  { apply fframe_pos. unfold br_frame in Hfr1, Hfr2. by rewrite Hfr2, Hfr1. }
  destruct Hb2 as [[Hh2 Hp2] He2].
  set (p2 := f_pos (br_r b2)) in *.
  assert (Hd2 : f_data (br_r b2) = f_data f) by (by rewrite Hf2).
  rewrite Hd2 in Hp2.
  assert (Hlen : length (f_data f) = (12 + length body)%nat).
  { rewrite Hd. rewrite app_length. cbn [length]. rewrite app_length, Hc. cbn. lia. }
  assert (Hp12 : (12 <= p2)%nat).
  { pose proof (f_equal length Hrem2) as Hx. unfold br_rem, frem in Hx. fold p2 in Hx.
    rewrite app_length, drop_length, Hd2 in Hx. lia. }
  unfold iobind at 1, iomaperr at 1, under_reader.
  change i_write_locked with (write_locked_at (Z.of_nat 7)).
  rewrite write_locked_ok; [|done|right; fold p2; rewrite Hd2; lia|right; rewrite Hd2; lia].
  fold p2. rewrite Hd2. set (f3 := File _ _ _ _ _ _).
  assert (Hd3 : f_data f3 = index_magic ++ v :: 1 :: c ++ body) by (unfold f3; cbn [f_data]; rewrite Hd; done).
  set (b3 := BReader f3 (br_buf b2) (br_err b2)).
  assert (Hb3 : br_ok reading_ok b3).
  { split; [|done]. split; [done|]. cbn [b3 br_r f3 f_pos]. rewrite Hd3, app_length. cbn [length]. rewrite app_length.
    rewrite Hlen in Hp2. cbn. lia. }
  assert (Hrem3 : br_rem frem b3 = body).
  { rewrite <- Hrem2. unfold br_rem, frem. cbn [b3 br_buf br_r]. f_equal. rewrite Hd3, Hd2, Hd. cbn [f3 f_pos].
    fold p2. replace p2 with (8 + (p2 - 8))%nat by lia. by rewrite <- !drop_drop. }
  destruct (follows_ientries _ _ _ _ (breader_reading rsz Hrsz) (Z.to_nat (be_dec c)) ∅ b3 Hb3)
    as (b4 & E4 & Hb4 & Hrem4 & Hfr4).
  rewrite Hrem3 in E4. rewrite E4.
  assert (Hf4 : br_r b4 = fset_pos (f_pos (br_r b4)) f3).
  { apply fframe_pos. unfold br_frame in Hfr4. by rewrite Hfr4. }
  exists (f_pos (br_r b4)).
  assert (Hd4 : f_data (br_r b4) = index_magic ++ v :: 1 :: c ++ body) by (by rewrite Hf4).
  split.
  - destruct Hb4 as [[_ Hp4] _]. rewrite Hd4 in Hp4. rewrite Hd, app_length in *. cbn [length] in *. lia.
  - f_equal. rewrite Hf4 at 1. unfold fset_pos. cbn [f_kind f_closed f_env f_log].
    change (f_data (File (f_kind f3) (f_data f3) (f_pos (br_r b4)) (f_closed f3) (f_env f3) (f_log f3))) with (f_data f3).
    rewrite Hd3. unfold f3. cbn [f_kind f_closed f_env f_log]. rewrite Hf2. done.
Qed.

(** ** Open *)

Lemma close_if_data c f : f_data (close_if c f) = f_data f.
Proof. destruct c; [apply fclose_data|done]. Qed.
Lemma close_if_log c f : f_log (close_if c f) = f_log f.
Proof. destruct c; [apply fclose_log|done]. Qed.

Lemma i_open_bad bsz rsz c f : (0 < rsz)%nat -> healthy f -> f_data f <> [] ->
  take 6 (f_data f) <> index_magic \/ (length (f_data f) < 12)%nat \/
  (exists x, f_data f !! 7%nat = Some x /\ x <> 0) ->
  exists f' e, i_open bsz rsz c f = (f', Err e) /\ f_data f' = f_data f.
Proof.
  intros Hrsz Hh Hne Hbad. unfold i_open, iobind at 1, closing at 1. rewrite fseek_end by done.
  assert (Hn : (0 <? Z.of_nat (length (f_data f))) = true).
  { apply Z.ltb_lt. destruct (f_data f); [done|]. cbn. lia. }
  rewrite Hn. unfold iobind, closing, iomaperr.
  destruct (i_load_bad rsz (fset_pos (length (f_data f)) f) Hrsz Hh Hbad) as (p & e & ->).
  eexists _, _. split; [done|]. by rewrite close_if_data.
Qed.

Lemma i_open_unlocked bsz rsz c f v cnt body : (0 < rsz)%nat -> healthy f -> length cnt = 4%nat ->
  f_data f = index_magic ++ v :: 0 :: cnt ++ body ->
  exists p, (p <= length (f_data f))%nat /\
    let f' := File (f_kind f) (index_magic ++ v :: 1 :: cnt ++ body) p false [] (f_log f ++ [WSet 7 1]) in
    match snd (i_load_entries lread (Z.to_nat (be_dec cnt)) ∅ body) with
    | Ret m => i_open bsz rsz c f = (f', Ret (IStore m f' c))
    | Err _ => exists e, i_open bsz rsz c f = (close_if c f', Err e)
    | Panic | Hang => True
    end.
Proof.
  intros Hrsz Hh Hc Hd.
  assert (Hh' : healthy (fset_pos (length (f_data f)) f)) by done.
  destruct (i_load_ok rsz (fset_pos (length (f_data f)) f) v cnt body Hrsz Hh' Hc Hd) as (p & Hp & El).
  exists p. split; [done|]. cbn zeta.
  assert (Hn : (0 <? Z.of_nat (length (f_data f))) = true).
  { apply Z.ltb_lt. rewrite Hd. cbn. lia. }
  assert (Eo : forall o, i_load rsz (fset_pos (length (f_data f)) f) = (fst (i_load rsz (fset_pos (length (f_data f)) f)), o) ->
    i_open bsz rsz c f = match o with
      | Ret m => (fst (i_load rsz (fset_pos (length (f_data f)) f)),
                  Ret (IStore m (fst (i_load rsz (fset_pos (length (f_data f)) f))) c))
      | Err _ => (close_if c (fst (i_load rsz (fset_pos (length (f_data f)) f))), Err (EMsg "failed to load index"))
      | Panic => (fst (i_load rsz (fset_pos (length (f_data f)) f)), Panic)
      | Hang => (fst (i_load rsz (fset_pos (length (f_data f)) f)), Hang)
      end).
  { intros o Ho. unfold i_open, iobind at 1, closing at 1. rewrite fseek_end by done. rewrite Hn.
    unfold iobind, closing, iomaperr. rewrite Ho. cbn [fst]. by destruct o. }
  rewrite El in Eo. cbn [fst] in Eo. specialize (Eo _ eq_refl).
  destruct (snd (i_load_entries _ _ _ _)); [done| |done|done]. eauto.
Qed.

Lemma i_open_image bsz rsz c f l tail : (0 < rsz)%nat -> healthy f -> Forall pair_typed l ->
  Z.of_nat (length l) < 2 ^ 32 ->
  f_data f = index_image 0 l ++ tail ->
  exists p, (p <= length (f_data f))%nat /\
    let f' := File (f_kind f) (index_image 1 l ++ tail) p false [] (f_log f ++ [WSet 7 1]) in
    i_open bsz rsz c f = (f', Ret (IStore (imap ∅ l) f' c)).
Proof.
  intros Hrsz Hh Ht Hl Hd.
  assert (Hd' : f_data f = index_magic ++ 1 :: 0 :: be_enc 4 (Z.of_nat (length l)) ++ ipairs l ++ tail).
  { rewrite Hd, index_image_enc, <- !app_assoc. done. }
  destruct (i_open_unlocked bsz rsz c f 1 _ _ Hrsz Hh (be_enc_length _ _) Hd') as (p & Hp & Ho).
  exists p. split; [done|]. rewrite be_dec_enc in Ho by (change (256 ^ Z.of_nat 4) with (2 ^ 32); lia).
  rewrite Nat2Z.id, iload_entries_app in Ho by done. cbn [snd] in Ho. cbn zeta in *.
  rewrite Ho, index_image_enc, <- !app_assoc. done.
Qed.

Lemma i_open_empty bsz rsz c f : healthy f -> f_data f = [] ->
  exists log, log = f_log f ++ wsets 0 (index_image 1 []) /\
    let f' := File (f_kind f) (index_image 1 []) 12 false [] log in
    i_open bsz rsz c f = (f', Ret (IStore ∅ f' c)).
Proof.
  intros Hh Hd. unfold i_open, iobind at 1, closing at 1. rewrite fseek_end by done. rewrite Hd.
  change (0 <? Z.of_nat (length [])) with false. cbv iota.
  unfold iobind at 1 2, closing, iomaperr at 1, i_create, with_bufio.
  set (m := iobind (iomaperr _ (i_write_prefix _)) _).
  set (wr := bw_write fwrite bsz) in *.
  assert (L : lawfulw wr (bw_ok healthy) (bw_img (fun f => f)))
    by apply (bw_write_lawful fwrite healthy (fun f => f) bsz fwrite_lawful).
  destruct (emits_maperr _ _ (fun _ => EMsg "failed to write index prefix") _ _ _
    (emits_iprefix wr _ _ L) (new_bwriter (fset_pos 0 f))) as (b1 & E1 & Hb1 & Hi1); [done|].
  destruct (emits_maperr _ _ (fun _ => EMsg "failed to write index header") _ _ _
    (emits_iheader wr _ _ L (IHeader index_version 1 0)) b1 Hb1) as (b2 & E2 & Hb2 & Hi2).
  destruct (bw_flush_lawful fwrite healthy (fun f => f) b2 fwrite_lawful Hb2) as (w & E3 & Hw & Hi3).
  assert (Em : m (new_bwriter (fset_pos 0 f)) = (BWriter w [] None, Ret tt)).
  { unfold m, iobind. rewrite E1. unfold iomaperr at 1 in E2. unfold iomaperr at 1.
    rewrite E2. unfold iomaperr. by rewrite E3. }
  cbn [length]. rewrite Em. cbn [bw_w]. unfold ioret. exists (f_log w).
  split.
  { rewrite Hi3, Hi2, Hi1. unfold bw_img. cbn [new_bwriter bw_buf bw_w]. rewrite fput_nil, <- fput_app.
    by rewrite fput_log. }
  assert (w = File (f_kind f) (index_image 1 []) 12 false [] (f_log w)) as ->; [|done].
  rewrite Hi3, Hi2, Hi1. unfold bw_img. cbn [new_bwriter bw_buf bw_w]. rewrite fput_nil.
  destruct f as [k d p cl e lg], Hh as [Hc He]. cbn [f_closed f_env f_data f_kind] in *. subst. done.
Qed.

(** ** Close *)

Definition hdr0 (n : Z) : list byte := [1; 0] ++ be_enc 4 n.
Definition ihdr_file (n : Z) (f : file) : file := fput (hdr0 n) (fset_pos 6 f).
Definition isaved_file (n : Z) (l : list (Z * Z)) (f : file) : file :=
  fput (ipairs l) (fset_pos 12 (ihdr_file n f)).

Lemma enc_iheader0 n : enc_iheader (IHeader index_version 0 (u32 n)) = hdr0 n.
Proof. unfold enc_iheader, hdr0. cbn [ih_version ih_locked ih_count]. change (u32 n) with (n mod 256 ^ Z.of_nat 4). by rewrite be_enc_mod. Qed.

Lemma ihdr_file_length n f : (length (f_data f) <= length (f_data (ihdr_file n f)))%nat /\
  (12 <= length (f_data (ihdr_file n f)))%nat.
Proof.
  unfold ihdr_file, hdr0. cbn [app]. rewrite fput_data_cons. cbn [fset_pos f_pos f_data]. rewrite splice_length.
  cbn [length]. rewrite be_enc_length. lia.
Qed.

Lemma closing_ret c {A} (m : io file A) f f' a : m f = (f', Ret a) -> closing c m f = (f', Ret a).
Proof. unfold closing. by intros ->. Qed.

Lemma i_save_header_ok bsz m c f : healthy f -> can_seek f 6 ->
  i_save_header bsz false m c f = (ihdr_file (Z.of_nat (size m)) f, Ret tt).
Proof.
  intros Hh Hs. unfold i_save_header, iobind at 1, closing, iomaperr at 1.
  change index_prefix_len with (Z.of_nat 6). rewrite fseek_start_nat by done.
  unfold with_bufio.
  destruct (emits_maperr _ _ (fun _ => EMsg "failed to write index header") _ _ _
    (emits_iheader (bw_write fwrite bsz) (bw_ok healthy) (bw_img (fun f => f))
      (bw_write_lawful fwrite healthy (fun f => f) bsz fwrite_lawful)
      (IHeader index_version 0 (u32 (Z.of_nat (size m))))) (new_bwriter (fset_pos 6 f))) as (b1 & E1 & Hb1 & Hi1); [done|].
  unfold iobind, closing_bw. rewrite E1. unfold iomaperr.
  destruct (bw_flush_lawful fwrite healthy (fun f => f) b1 fwrite_lawful Hb1) as (w & -> & Hw & Hi2).
  cbn [bw_w]. rewrite Hi2, Hi1, enc_iheader0. done.
Qed.

Lemma i_save_entries_ok bsz sh m f : healthy f -> can_seek f 12 ->
  i_save_entries bsz sh m f = (fput (ipairs (shuf sh (map_to_list m))) (fset_pos 12 f), Ret tt).
Proof.
  intros Hh Hs. unfold i_save_entries, iobind at 1, iomaperr at 1.
  change index_entries_offset with (Z.of_nat 12). rewrite fseek_start_nat by done.
  unfold with_bufio, iobind.
  destruct (emits_ientries (bw_write fwrite bsz) (bw_ok healthy) (bw_img (fun f => f))
      (bw_write_lawful fwrite healthy (fun f => f) bsz fwrite_lawful)
      (shuf sh (map_to_list m)) (new_bwriter (fset_pos 12 f))) as (b1 & E1 & Hb1 & Hi1); [done|].
  rewrite E1. unfold iomaperr.
  destruct (bw_flush_lawful fwrite healthy (fun f => f) b1 fwrite_lawful Hb1) as (w & -> & Hw & Hi2).
  cbn [bw_w]. rewrite Hi2, Hi1. done.
Qed.

Lemma isaved_healthy n l f : healthy f -> healthy (isaved_file n l f).
Proof. intros. by apply fput_healthy, fset_pos_healthy, fput_healthy, fset_pos_healthy. Qed.

Lemma close_if_ok (c : bool) (f : file) : healthy f -> (if c then fclose else ioret tt : io file unit) f = (close_if c f, Ret tt).
Proof. intros H. destruct c; [|done]. unfold close_if. by rewrite (fclose_healthy f H). Qed.

Lemma i_close_ok bsz sh s : healthy (is_file s) -> can_seek (is_file s) 6 ->
  i_close bsz sh s =
    (IStore (is_map s) (close_if (is_closer s)
       (isaved_file (Z.of_nat (size (is_map s))) (shuf sh (map_to_list (is_map s))) (is_file s))) (is_closer s),
     Ret tt).
Proof.
  intros Hh Hs. unfold i_close, iobind.
  rewrite (closing_ret _ _ _ _ _ (i_save_header_ok bsz (is_map s) (is_closer s) _ Hh Hs)).
  set (f1 := ihdr_file _ _).
  assert (Hh1 : healthy f1) by (by apply fput_healthy, fset_pos_healthy).
  assert (Hs1 : can_seek f1 12) by (right; apply ihdr_file_length).
  rewrite (closing_ret _ _ _ _ _ (i_save_entries_ok bsz sh (is_map s) f1 Hh1 Hs1)).
  rewrite close_if_ok; [done|]. by apply fput_healthy, fset_pos_healthy.
Qed.

Lemma isaved_data n l f a b rest cnt : length cnt = 4%nat ->
  f_data f = index_magic ++ a :: b :: cnt ++ rest ->
  f_data (isaved_file n l f) = index_magic ++ hdr0 n ++ ipairs l ++ drop (16 * length l) rest.
Proof.
  intros Hc Hd. unfold isaved_file. rewrite fput_data by (cbn [fset_pos f_pos f_data]; apply ihdr_file_length).
  cbn [fset_pos f_pos f_data]. unfold ihdr_file.
  rewrite fput_data by (cbn [fset_pos f_pos f_data]; rewrite Hd; cbn; lia).
  cbn [fset_pos f_pos f_data]. rewrite Hd.
  assert (E : splice 6 (hdr0 n) (index_magic ++ a :: b :: cnt ++ rest) = (index_magic ++ hdr0 n) ++ rest).
  { change (a :: b :: cnt ++ rest) with ((a :: b :: cnt) ++ rest).
    rewrite (splice_mid 6 (hdr0 n) index_magic (a :: b :: cnt) rest); [by rewrite app_assoc|done|].
    cbn. rewrite Hc. done. }
  rewrite E. rewrite <- (take_drop (16 * length l) rest) at 1.
  destruct (decide (16 * length l <= length rest)%nat) as [Hr | Hr].
  - rewrite (splice_mid 12 (ipairs l) (index_magic ++ hdr0 n) (take (16 * length l) rest) (drop (16 * length l) rest)).
    + by rewrite <- !app_assoc.
    + unfold hdr0. cbn. done.
    + rewrite ipairs_length, take_length. lia.
  - rewrite take_ge, drop_ge by lia. rewrite !app_nil_r. unfold splice.
    rewrite ipairs_length. rewrite drop_ge by (rewrite app_length; cbn; lia). rewrite app_nil_r.
    rewrite take_app_le by (rewrite app_length; cbn; lia). rewrite take_ge by (cbn; lia). by rewrite app_nil_r, <- app_assoc.
Qed.

(** ** Maps and lists of pairs *)

Lemma imap_lookup l : forall m k,
  imap m l !! k = index_value (map (fun x => IvPut (fst x) (snd x)) l) k (m !! k).
Proof.
  induction l as [|[a b] l IH]; intros m k; [done|].
  cbn [imap fold_left map index_value fst snd]. change (fold_left _ l ?x) with (imap x l).
  rewrite IH. f_equal. destruct (a =? k) eqn:E.
  - apply Z.eqb_eq in E as ->. by rewrite lookup_insert.
  - apply Z.eqb_neq in E. by rewrite lookup_insert_ne.
Qed.

Lemma imap_nodup l : NoDup (map fst l) -> forall m, imap m l = list_to_map l ∪ m.
Proof.
  induction l as [|[a b] l IH]; intros Hn m; cbn [imap fold_left fst snd].
  - cbn. by rewrite (left_id_L ∅ (∪)).
  - change (fold_left _ l ?x) with (imap x l). apply NoDup_cons in Hn as [Ha Hn].
    rewrite IH by done. cbn [list_to_map]. change (list_to_map ((a, b) :: l) : gmap Z Z) with (<[a:=b]> (list_to_map l : gmap Z Z)).
    rewrite <- insert_union_r by (by apply not_elem_of_list_to_map_1). by rewrite insert_union_l.
Qed.

Lemma imap_saved (sh : index_order) (m : gmap Z Z) : imap ∅ (shuf sh (map_to_list m)) = m.
Proof.
  assert (Hn : NoDup (map fst (shuf sh (map_to_list m)))).
  { rewrite (shuf_perm sh). apply NoDup_fst_map_to_list. }
  rewrite imap_nodup, (right_id_L ∅ (∪)) by done.
  rewrite (list_to_map_proper _ (map_to_list m)).
  - apply list_to_map_to_list.
  - done.
  - apply shuf_perm.
Qed.

Lemma saved_length (sh : index_order) (m : gmap Z Z) : length (shuf sh (map_to_list m)) = size m.
Proof. rewrite (shuf_perm sh). done. Qed.

Definition map_typed (m : gmap Z Z) : Prop := forall k v, m !! k = Some v -> is_u64 k /\ is_u64 v.

Lemma saved_typed (sh : index_order) (m : gmap Z Z) : map_typed m -> Forall pair_typed (shuf sh (map_to_list m)).
Proof.
  intros Ht. rewrite (shuf_perm sh). apply Forall_forall. intros [k v] Hx. apply Ht.
  by apply elem_of_map_to_list in Hx.
Qed.

Lemma imap_typed l : Forall pair_typed l -> forall m, map_typed m -> map_typed (imap m l).
Proof.
  induction 1 as [|[a b] l [Ha Hb] _ IH]; intros m Hm; [done|].
  cbn [imap fold_left fst snd]. apply IH. intros k v. rewrite lookup_insert_Some. intros [[<- <-] | [_ Hk]]; [done|].
  by apply Hm.
Qed.

Lemma imap_size l : forall m, (size (imap m l) <= size m + length l)%nat.
Proof.
  induction l as [|[a b] l IH]; intros m; cbn [imap fold_left length fst snd]; [cbn; lia|].
  change (fold_left _ l ?x) with (imap x l). rewrite IH. rewrite map_size_insert. destruct (m !! a); cbn; lia.
Qed.

Lemma index_value_app a b id x : index_value (a ++ b) id x = index_value b id (index_value a id x).
Proof. revert x. induction a as [|[k v|k] a IH]; intros x; cbn [app index_value]; [done|apply IH|apply IH]. Qed.

(** ** Executions *)

Record iinv (h : list ievent) (s : istore) : Prop := {
  ii_ok : healthy (is_file s);
  ii_seek : can_seek (is_file s) (f_pos (is_file s));
  ii_data : exists cnt rest, length cnt = 4%nat /\ f_data (is_file s) = index_magic ++ 1 :: 1 :: cnt ++ rest;
  ii_map : forall id, is_map s !! id = index_value h id None;
  ii_typed : map_typed (is_map s);
  ii_size : (size (is_map s) <= length h)%nat;
}.

Lemma iinv_seek h s n : iinv h s -> (n <= 12)%nat -> can_seek (is_file s) n.
Proof.
  intros I Hn. right. destruct (ii_data _ _ I) as (cnt & rest & Hc & ->).
  rewrite app_length. cbn [length]. rewrite app_length. cbn. lia.
Qed.

Lemma usable_healthy f : usable f -> healthy f.
Proof. by intros (? & ? & _). Qed.

Lemma typed_pairs l : Forall (fun x : Z * Z => is_u64 (fst x) /\ is_u64 (snd x)) l -> Forall pair_typed l.
Proof. done. Qed.

Lemma image_shape v l tail : index_image v l ++ tail =
  index_magic ++ 1 :: v :: be_enc 4 (Z.of_nat (length l)) ++ ipairs l ++ tail.
Proof. rewrite index_image_enc, <- !app_assoc. done. Qed.

(** A file being opened. *)
Lemma open_image_inv bsz rsz c f l tail : (0 < rsz)%nat -> usable f -> Forall pair_typed l ->
  Z.of_nat (length l) < 2 ^ 32 ->
  f_data f = index_image 0 l ++ tail ->
  exists f' s, i_open bsz rsz c f = (f', Ret s) /\ is_file s = f' /\ is_closer s = c /\ is_map s = imap ∅ l /\
    f_data f' = index_image 1 l ++ tail /\ f_kind f' = f_kind f /\ healthy f' /\
    can_seek f' (f_pos f') /\ f_log f' = f_log f ++ [WSet 7 1].
Proof.
  intros Hrsz Hu Ht Hl Hd.
  destruct (i_open_image bsz rsz c f l tail Hrsz (usable_healthy _ Hu) Ht Hl Hd) as (p & Hp & Ho).
  eexists _, _. split; [apply Ho|]. cbn [is_file is_closer is_map f_data f_kind f_closed f_env f_pos].
  repeat split. right. cbn [f_data]. rewrite Hd in Hp. rewrite image_shape in *. exact Hp.
Qed.

Lemma call_inv h s e : iinv h s -> iv_typed e -> iinv (h ++ [e]) (i_call e s).
Proof.
  intros I Ht. destruct e as [k v|k]; cbn [i_call].
  - destruct Ht as [Hk Hv]. constructor; try apply I; cbn [i_put is_map is_file].
    + intros id. rewrite index_value_app. cbn [index_value]. destruct (k =? id) eqn:E.
      * apply Z.eqb_eq in E as ->. by rewrite lookup_insert.
      * apply Z.eqb_neq in E. rewrite lookup_insert_ne by done. apply I.
    + intros a b. rewrite lookup_insert_Some. intros [[<- <-] | [_ Hx]]; [done|]. by apply (ii_typed _ _ I).
    + rewrite map_size_insert, app_length. pose proof (ii_size _ _ I). destruct (is_map s !! k); cbn; lia.
  - assert (Hm : is_map (i_remove k s) = delete k (is_map s) /\ is_file (i_remove k s) = is_file s).
    { unfold i_remove. destruct (is_map s !! k) eqn:E; [done|]. by rewrite delete_notin. }
    destruct Hm as [Hm Hf]. constructor; rewrite ?Hm, ?Hf; try apply I.
    + intros id. rewrite index_value_app. cbn [index_value]. destruct (k =? id) eqn:E.
      * apply Z.eqb_eq in E as ->. by rewrite lookup_delete.
      * apply Z.eqb_neq in E. rewrite lookup_delete_ne by done. apply I.
    + intros a b. rewrite lookup_delete_Some. intros [_ Hx]. by apply (ii_typed _ _ I).
    + rewrite map_size_delete, app_length. pose proof (ii_size _ _ I). destruct (is_map s !! k); cbn; lia.
Qed.

Lemma closed_image bsz sh h s : iinv h s ->
  exists s' tail, i_close bsz sh s = (s', Ret tt) /\ is_map s' = is_map s /\
    is_file s' = close_if (is_closer s)
      (isaved_file (Z.of_nat (size (is_map s))) (shuf sh (map_to_list (is_map s))) (is_file s)) /\
    f_data (is_file s') = index_image 0 (shuf sh (map_to_list (is_map s))) ++ tail.
Proof.
  intros I. destruct (ii_data _ _ I) as (cnt & rest & Hc & Hd).
  rewrite i_close_ok by (first [apply I | by apply (iinv_seek h); [|lia]]).
  eexists _, _. split; [done|]. cbn [is_map is_file]. split; [done|]. split; [done|].
  rewrite close_if_data, (isaved_data _ _ _ _ _ rest cnt Hc Hd), index_image_enc, saved_length. unfold hdr0.
  by rewrite <- !app_assoc.
Qed.

Lemma session_inv bsz rsz c h s : (0 < rsz)%nat -> isession bsz rsz c h s -> Z.of_nat (length h) < 2 ^ 32 ->
  iinv h s /\ is_closer s = c.
Proof.
  intros Hrsz. induction 1 as [f f' s Hu Hd Ho|f f' s l tail Hu Ht Hd Ho|h s e _ IH Ht|h s sh s' f f' t _ IH Hcl Hu Hd Ho];
    intros Hlen.
  - destruct (i_open_empty bsz rsz c f (usable_healthy _ Hu) Hd) as (log & _ & E). cbn zeta in E.
    rewrite E in Ho. injection Ho as <- <-. split; [|done]. constructor; cbn [is_file is_map f_pos f_data f_closed f_env].
    + done.
    + right. cbn. lia.
    + exists [0;0;0;0], []. done.
    + intros id. done.
    + intros k v. by rewrite lookup_empty.
    + by rewrite map_size_empty.
  - rewrite map_length in Hlen. destruct (open_image_inv bsz rsz c f l tail) as (f1 & s1 & E & Hf & Hc & Hm & Hd1 & _ & Hh & Hs & _); try done.
    rewrite E in Ho. injection Ho as <- <-. split; [|done]. constructor; rewrite ?Hf, ?Hm; try done.
    + rewrite Hd1, image_shape. eexists _, _. split; [|done]. apply be_enc_length.
    + intros id. apply imap_lookup.
    + by apply imap_typed.
    + rewrite map_length. rewrite imap_size, map_size_empty. lia.
  - rewrite app_length in Hlen. cbn in Hlen. destruct IH as [I Hc]; [lia|]. split; [by apply call_inv|].
    destruct e as [k v|k]; [done|]. cbn [i_call]. unfold i_remove. by destruct (is_map s !! k).
  - destruct IH as [I Hc]; [done|].
    destruct (closed_image bsz sh h s I) as (s1 & tail & E & Hm1 & _ & Hd1). rewrite E in Hcl. injection Hcl as <-.
    destruct (open_image_inv bsz rsz c f (shuf sh (map_to_list (is_map s))) tail) as (f1 & s2 & E2 & Hf & Hc2 & Hm & Hd2 & _ & Hh & Hs & _); try done.
    + apply saved_typed, I.
    + rewrite saved_length. pose proof (ii_size _ _ I). lia.
    + congruence.
    + rewrite E2 in Ho. injection Ho as <- <-. split; [|done]. rewrite imap_saved in Hm. constructor; rewrite ?Hf, ?Hm; try apply I; try done.
      rewrite Hd2, image_shape. eexists _, _. split; [|done]. apply be_enc_length.
Qed.

(** ** Dying during Close *)

Lemma isaved_log n l f : f_log (isaved_file n l f) = f_log f ++ wsets 6 (hdr0 n) ++ wsets 12 (ipairs l).
Proof. unfold isaved_file, ihdr_file. rewrite !fput_log. cbn [fset_pos f_pos f_log]. by rewrite fput_log, <- app_assoc. Qed.

Lemma close_crash_image n l f c cnt rest j : length cnt = 4%nat ->
  f_data f = index_magic ++ 1 :: 1 :: cnt ++ rest ->
  crash_image f (close_if c (isaved_file n l f)) j =
  if decide (j <= 1)%nat then f_data f else
    index_magic ++ 1 :: 0 :: (take (j - 2) (be_enc 4 n) ++ drop (j - 2) cnt) ++
      (take (j - 6) (ipairs l) ++ drop (length (take (j - 6) (ipairs l))) rest).
Proof.
  intros Hc Hd. unfold crash_image, written_by. rewrite close_if_log, isaved_log, drop_app_alt by done.
  assert (Hl : length (f_data f) = (12 + length rest)%nat).
  { rewrite Hd, app_length. cbn [length]. rewrite app_length, Hc. cbn. lia. }
  assert (Hw : length (wsets 6 (hdr0 n)) = 6%nat) by (by rewrite wsets_length).
  set (b := be_enc 4 n) in *. assert (Hb : length b = 4%nat) by done.
  change (hdr0 n) with (1 :: 0 :: b) in *. clearbody b.
  rewrite firstn_app, Hw, replay_app, wsets_take, wsets_take.
  rewrite (replay_wsets 6) by (right; lia).
  destruct (decide (j <= 1)%nat) as [Hj | Hj].
  - replace (j - 6)%nat with 0%nat by lia. cbn [take wsets replay fold_left].
    rewrite Hd. assert (j = 0 \/ j = 1)%nat as [-> | ->] by lia; done.
  - destruct j as [|[|j]]; [lia|lia|]. replace (S (S j) - 2)%nat with j by lia. cbn [take].
    assert (Hs : splice 6 (1 :: 0 :: take j b) (f_data f) =
      (index_magic ++ 1 :: 0 :: take j b ++ drop j cnt) ++ rest).
    { rewrite Hd. rewrite splice_prefix by done. rewrite <- app_assoc. f_equal.
      cbn [length drop app]. do 2 f_equal. rewrite <- app_assoc. f_equal.
      rewrite take_length, Hb. destruct (decide (j <= 4)%nat).
      - rewrite Nat.min_l by done. by rewrite drop_app_le by lia.
      - rewrite Nat.min_r by lia. rewrite drop_app_alt by done. by rewrite (drop_ge cnt) by lia. }
    rewrite Hs.
    assert (Hp : length (index_magic ++ 1 :: 0 :: take j b ++ drop j cnt) = 12%nat).
    { rewrite app_length. cbn [length]. rewrite app_length, take_length, drop_length, Hb, Hc. cbn. lia. }
    rewrite replay_wsets by (right; rewrite app_length; lia).
    rewrite splice_prefix by done. rewrite <- !app_assoc. cbn [app]. by rewrite <- !app_assoc.
Qed.

(** Opening a file whose entries are incomplete. *)
Lemma i_open_short bsz rsz c f v cnt body : (0 < rsz)%nat -> healthy f -> length cnt = 4%nat ->
  f_data f = index_magic ++ v :: 0 :: cnt ++ body -> (length body < 16 * Z.to_nat (be_dec cnt))%nat ->
  exists f' e, i_open bsz rsz c f = (f', Err e).
Proof.
  intros Hrsz Hh Hc Hd Hs. destruct (i_open_unlocked bsz rsz c f v cnt body Hrsz Hh Hc Hd) as (p & Hp & Ho).
  destruct (iload_entries_short _ ∅ body Hs) as (l' & e & E). rewrite E in Ho. cbn [snd] in Ho. cbn zeta in Ho.
  destruct Ho as (e' & ->). eauto.
Qed.

Lemma i_open_none bsz rsz c f v cnt body : (0 < rsz)%nat -> healthy f -> length cnt = 4%nat ->
  f_data f = index_magic ++ v :: 0 :: cnt ++ body -> be_dec cnt = 0 ->
  exists f' s, i_open bsz rsz c f = (f', Ret s) /\ is_map s = ∅.
Proof.
  intros Hrsz Hh Hc Hd Hs. destruct (i_open_unlocked bsz rsz c f v cnt body Hrsz Hh Hc Hd) as (p & Hp & Ho).
  rewrite Hs in Ho. change (snd (i_load_entries lread (Z.to_nat 0) ∅ body)) with (Ret (∅ : gmap Z Z)) in Ho. cbv iota zeta in Ho.
  eexists _, _. split; [apply Ho|done].
Qed.

Definition i_calls (h : list ievent) (s : istore) : istore := fold_left (fun s e => i_call e s) h s.

Lemma calls_file h : forall s, is_file (i_calls h s) = is_file s /\ is_closer (i_calls h s) = is_closer s.
Proof.
  induction h as [|e h IH]; intros s; [done|]. cbn [i_calls fold_left].
  change (fold_left _ h ?x) with (i_calls h x). destruct (IH (i_call e s)) as [-> ->].
  destruct e as [k v|k]; [done|]. cbn. unfold i_remove. by destruct (is_map s !! k).
Qed.

Lemma calls_inv h : forall g s, iinv g s -> Forall iv_typed h -> iinv (g ++ h) (i_calls h s).
Proof.
  induction h as [|e h IH]; intros g s I Ht; [by rewrite app_nil_r|].
  apply Forall_cons in Ht as [He Ht]. cbn [i_calls fold_left].
  replace (g ++ e :: h) with ((g ++ [e]) ++ h) by (by rewrite <- app_assoc).
  apply IH; [|done]. by apply call_inv.
Qed.

(** ** Calls that return, whatever the I/O errors *)

Definition settles {S A} (m : io S A) : Prop := forall s, snd (m s) <> Panic /\ snd (m s) <> Hang.

Lemma settles_ret {S A} (a : A) : settles (ioret a : io S A).
Proof. by intros s. Qed.
Lemma settles_bind {S A B} (m : io S A) (k : A -> io S B) :
  settles m -> (forall a, settles (k a)) -> settles (iobind m k).
Proof.
  intros Hm Hk s. unfold iobind. specialize (Hm s). destruct (m s) as [s' [a|e| |]]; cbn in *; [apply Hk|done|by destruct Hm..].
Qed.
Lemma settles_maperr {S A} g (m : io S A) : settles m -> settles (iomaperr g m).
Proof. intros Hm s. unfold iomaperr. specialize (Hm s). by destruct (m s) as [s' [a|e| |]]. Qed.
Lemma settles_closing c {A} (m : io file A) : settles m -> settles (closing c m).
Proof. intros Hm s. unfold closing. specialize (Hm s). by destruct (m s) as [s' [a|e| |]]. Qed.
Lemma settles_closing_bw c {A} (m : io (bwriter file) A) : settles m -> settles (closing_bw c m).
Proof. intros Hm s. unfold closing_bw. specialize (Hm s). by destruct (m s) as [s' [a|e| |]]. Qed.
Lemma settles_write_all {W} (wr : writer W) bs : settles (write_all wr bs).
Proof. intros w. unfold write_all. by destruct (wr bs w) as [w' [n [e|]]]. Qed.
Lemma settles_fseek off w : settles (fseek off w).
Proof.
  intros f. unfold fseek. destruct (f_closed f); [done|]. by destruct (match f_kind f with KBuf => _ | KOs => _ end).
Qed.
Lemma settles_bw_flush {W} (wr : writer W) : settles (bw_flush wr).
Proof.
  intros b. unfold bw_flush. destruct (bw_err b); [done|]. destruct (bw_buf b) as [|x l] eqn:Eb; [done|].
  destruct (wr _ _) as [w' [n [e|]]]; [done|]. by destruct (n <? _)%nat.
Qed.
Lemma settles_with_bufio {A} (m : io (bwriter file) A) : settles m -> settles (with_bufio m).
Proof. intros Hm f. unfold with_bufio. specialize (Hm (new_bwriter f)). by destruct (m _) as [b o]. Qed.
Lemma settles_fclose : settles fclose.
Proof. intros f. unfold fclose. by destruct (f_kind f), (f_closed f), (next_fault f) as [[|k] g]. Qed.

Lemma settles_save_header bsz b m c : settles (i_save_header bsz b m c).
Proof.
  apply settles_bind; [by apply settles_closing, settles_maperr, settles_fseek|]. intros _.
  apply settles_with_bufio, settles_bind; [|intros; by apply settles_maperr, settles_bw_flush].
  apply settles_closing_bw, settles_maperr. repeat (apply settles_bind; [apply settles_write_all|intros ?]).
  apply settles_write_all.
Qed.

Lemma settles_write_entries {W} (wr : writer W) l : settles (i_write_entries wr l).
Proof.
  induction l as [|[k v] l IH]; [apply settles_ret|]. cbn [i_write_entries].
  apply settles_bind; [|done]. apply settles_maperr.
  apply settles_bind; [apply settles_write_all|intros ?; apply settles_write_all].
Qed.

Lemma settles_save_entries bsz sh m : settles (i_save_entries bsz sh m).
Proof.
  apply settles_bind; [by apply settles_maperr, settles_fseek|]. intros _.
  apply settles_with_bufio, settles_bind; [apply settles_write_entries|].
  intros. by apply settles_maperr, settles_bw_flush.
Qed.

Lemma close_if_closed f : f_closed (close_if true f) = true.
Proof. apply fclose_closed. Qed.

Lemma i_close_closes bsz sh s : is_closer s = true ->
  f_closed (is_file (fst (i_close bsz sh s))) = true /\
  snd (i_close bsz sh s) <> Panic /\ snd (i_close bsz sh s) <> Hang.
Proof.
  intros Hc. unfold i_close. rewrite Hc.
  set (m := iobind _ _). destruct (m (is_file s)) as [f o] eqn:Em.
  assert (H : f_closed f = true /\ o <> Panic /\ o <> Hang); [|done].
  unfold m, iobind, closing in Em.
  pose proof (settles_save_header bsz false (is_map s) true (is_file s)) as H1.
  destruct (i_save_header _ _ _ _ _) as [f1 [u|e| |]]; cbn [snd] in H1; try by destruct H1.
  2:{ injection Em as <- <-. split; [apply close_if_closed|done]. }
  pose proof (settles_save_entries bsz sh (is_map s) f1) as H2.
  destruct (i_save_entries _ _ _ _) as [f2 [u2|e| |]]; cbn [snd] in H2; try by destruct H2.
  2:{ injection Em as <- <-. split; [apply close_if_closed|done]. }
  pose proof (settles_fclose f2) as H3. pose proof (close_if_closed f2) as H4. unfold close_if in H4.
  rewrite Em in H3, H4. done.
Qed.
