(** Recovery of a delta file while reads and writes may fail. *)
From Verif Require Import Base GoIO GoIOFacts Lock Delta SpecDelta CodecFacts DeltaFacts DeltaRecoverFacts RobustFacts LockFacts.

(** [m] on a file: as [m'] on the bytes that follow, or an error. *)
Definition mirror {A} (k : nat) (m : io file A) (m' : io (list byte) A) : Prop := forall f,
  (exists f' a, m f = (f', Ret a) /\ (k <= length (frem f))%nat /\ frem f' = drop k (frem f) /\
     f_data f' = f_data f /\ f_kind f' = f_kind f /\ f_closed f' = f_closed f /\
     forall tail, m' (take k (frem f) ++ tail) = (tail, Ret a)) \/
  (exists f' e, m f = (f', Err e) /\ f_data f' = f_data f /\ f_kind f' = f_kind f /\ f_closed f' = f_closed f).

Lemma mirror_ret {A} (a : A) : mirror 0 (ioret a) (ioret a).
Proof.
  intros f. left. exists f, a. split; [done|]. split; [lia|]. split; [by rewrite drop_0|]. done.
Qed.
Lemma mirror_bind {A B} k k' (m : io file A) m' (g : A -> io file B) g' :
  mirror k m m' -> (forall a, mirror k' (g a) (g' a)) -> mirror (k + k') (iobind m g) (iobind m' g').
Proof.
  intros Hm Hg f. unfold iobind. destruct (Hm f) as [(f1 & a & E & L & D & Fd & Fk & Fc & T)|(f1 & e & E & H)].
  2: { right. rewrite E. eauto. }
  rewrite E. destruct (Hg a f1) as [(f2 & b & E2 & L2 & D2 & Fd2 & Fk2 & Fc2 & T2)|(f2 & e & E2 & Fd2 & Fk2 & Fc2)].
  2: { right. rewrite E2. exists f2, e. split; [done|]. split; [congruence|]. split; congruence. }
  left. rewrite E2. exists f2, b. split; [done|]. rewrite D, drop_length in L2. split; [lia|].
  split; [rewrite D2, D; by rewrite drop_drop|]. split; [congruence|]. split; [congruence|]. split; [congruence|].
  intros tail. rewrite <- take_take_drop, <- app_assoc, T. rewrite D in T2. apply T2.
Qed.

Definition same_but_pos (f f' : file) : Prop :=
  f_data f' = f_data f /\ f_kind f' = f_kind f /\ f_closed f' = f_closed f.

Lemma fread_cases n f : (0 < n)%nat ->
  exists f' bs e, fread n f = (f', (bs, e)) /\ same_but_pos f f' /\
    bs = take (length bs) (frem f) /\ (length bs <= n)%nat /\ (length bs <= length (frem f))%nat /\
    frem f' = drop (length bs) (frem f) /\ (e = None -> bs <> []).
Proof.
  intros Hn. pose proof (fread_progress n f Hn) as Hp.
  assert (H : exists f' bs e, fread n f = (f', (bs, e)) /\ same_but_pos f f' /\
    bs = take (length bs) (frem f) /\ (length bs <= n)%nat /\ (length bs <= length (frem f))%nat /\
    frem f' = drop (length bs) (frem f)).
  2: { destruct H as (f' & bs & e & E & H). rewrite E in Hp. exists f', bs, e. tauto. }
  clear Hp. unfold fread. destruct (f_closed f) eqn:Ec.
  { exists f, [], (Some EClosed). unfold same_but_pos. cbn. rewrite take_0, drop_0. repeat split; lia. }
  assert (E : forall x f', next_fault f = (x, f') -> same_but_pos f f' /\ f_pos f' = f_pos f).
  { unfold next_fault, same_but_pos. destruct (f_env f); intros x f' [= <- <-]; done. }
  destruct (next_fault f) as [x f'] eqn:Ef. destruct (E _ _ eq_refl) as ((Ed & Ek & Ecl) & Ep). clear E. cbn zeta.
  assert (Hr : drop (f_pos f') (f_data f') = frem f) by (unfold frem; congruence).
  rewrite Hr.
  assert (G : forall m, (m <= n)%nat ->
    let bs := take m (frem f) in
    same_but_pos f (fset_pos (f_pos f' + length bs) f') /\
    bs = take (length bs) (frem f) /\ (length bs <= n)%nat /\ (length bs <= length (frem f))%nat /\
    frem (fset_pos (f_pos f' + length bs) f') = drop (length bs) (frem f)).
  { intros m Hm bs. assert (length bs = Nat.min m (length (frem f))) as L by apply take_length.
    split; [by unfold same_but_pos|]. split.
    - unfold bs. rewrite take_length. destruct (Nat.le_ge_cases m (length (frem f))).
      + by rewrite Nat.min_l.
      + rewrite Nat.min_r by done. rewrite !take_ge; done.
    - split; [lia|]. split; [lia|]. unfold frem, fset_pos. cbn. rewrite Ed, Ep. by rewrite drop_drop. }
  destruct x as [|k].
  - destruct (decide (frem f = [])) as [En|En].
    + exists f', [], (Some EEOF). rewrite En. split; [destruct (f_kind f'), n; [lia|done|lia|done]|].
      split; [done|]. cbn. split; [done|]. split; [lia|]. split; [lia|].
      unfold frem. rewrite Ed, Ep. done.
    + exists (fset_pos (f_pos f' + length (take n (frem f))) f'), (take n (frem f)), None.
      split; [|apply G; lia]. destruct (f_kind f'), n, (frem f); try lia; done.
  - exists (fset_pos (f_pos f' + length (take (Nat.min k n) (frem f))) f'), (take (Nat.min k n) (frem f)), (Some EInjected).
    split; [done|]. apply G. lia.
Qed.

Lemma read_full_loop_cases n : forall fuel acc g, (n <= length acc + fuel)%nat ->
  (exists f' bs, read_full_loop fread fuel n acc g = (f', Ret (acc ++ bs)) /\ same_but_pos g f' /\
    (length bs = n - length acc)%nat /\ (length bs <= length (frem g))%nat /\
    bs = take (length bs) (frem g) /\ frem f' = drop (length bs) (frem g)) \/
  (exists f' e, read_full_loop fread fuel n acc g = (f', Err e) /\ same_but_pos g f').
Proof.
  intros fuel. induction fuel as [|fuel IH]; intros acc g Hf; cbn [read_full_loop].
  - destruct (Nat.leb_spec n (length acc)); [|lia].
    left. exists g, []. rewrite app_nil_r. unfold same_but_pos. cbn. rewrite take_0, drop_0. repeat split; lia.
  - destruct (Nat.leb_spec n (length acc)).
    { left. exists g, []. rewrite app_nil_r. unfold same_but_pos. cbn. rewrite take_0, drop_0. repeat split; lia. }
    destruct (fread_cases (n - length acc) g ltac:(lia)) as (g' & bs & e & -> & (S1 & S2 & S3) & Eb & L1 & L2 & R & Hne).
    destruct e as [e|].
    + destruct (Nat.leb_spec n (length (acc ++ bs))) as [L|L]; rewrite app_length in L.
      * left. exists g', bs. split; [done|]. split; [done|]. split; [lia|done].
      * right. destruct e; try (by eexists _, _). destruct (acc ++ bs); by eexists _, _.
    + assert (0 < length bs)%nat by (destruct bs; [by destruct Hne|cbn; lia]).
      destruct (IH (acc ++ bs) g') as [(f' & cs & E & (T1 & T2 & T3) & H1 & H2 & H3 & H4)|(f' & e & E & (T1 & T2 & T3))].
      { rewrite app_length. lia. }
      * left. exists f', (bs ++ cs). rewrite <- app_assoc in E. split; [done|].
        split; [unfold same_but_pos; repeat split; congruence|].
        rewrite !app_length in *. rewrite R in H2, H3, H4. rewrite drop_length in H2.
        split; [lia|]. split; [lia|]. rewrite <- drop_drop. split; [|done].
        rewrite <- take_take_drop. congruence.
      * right. exists f', e. split; [done|]. unfold same_but_pos. repeat split; congruence.
Qed.

Lemma read_full_mirror n : mirror n (read_full fread n) (read_full lread n).
Proof.
  intros f. destruct (read_full_loop_cases n n [] f) as [(f' & bs & E & (S1 & S2 & S3) & L & L2 & Eb & R)|(f' & e & E & S1 & S2 & S3)].
  { cbn. lia. }
  - left. cbn in L. rewrite Nat.sub_0_r in L. exists f', bs. rewrite L in *.
    do 6 (split; [done|]). intros tail. rewrite <- Eb. by apply read_full_app.
  - right. by exists f', e.
Qed.
Lemma read_uint_mirror k : mirror k (read_uint fread k) (read_uint lread k).
Proof.
  replace k with (k + 0)%nat at 1 by lia. unfold read_uint.
  apply mirror_bind; [apply read_full_mirror|]. intros a. apply mirror_ret.
Qed.
Lemma d_read_entry_mirror : mirror 18 (d_read_entry fread) (d_read_entry lread).
Proof.
  unfold d_read_entry. apply (mirror_bind 1 17); [apply read_uint_mirror|]. intros ?.
  apply (mirror_bind 8 9); [apply read_uint_mirror|]. intros ?.
  apply (mirror_bind 8 1); [apply read_uint_mirror|]. intros ?.
  apply (mirror_bind 1 0); [apply read_uint_mirror|]. intros ?. apply mirror_ret.
Qed.

(** ** The copy loop and RecoverTo *)

Lemma recover_loop_mirror fuel : forall count f w,
  exists k f' w' o x, (k <= length (frem f))%nat /\ same_but_pos f f' /\
    recover_loop fread fuel count (f, w) = ((f', w'), o) /\
    recover_loop lread fuel count (take k (frem f), w) = ((x, w'), o).
Proof.
  induction fuel as [|fuel IH]; intros count f w.
  { exists 0%nat, f, w, Hang, []. split; [lia|]. done. }
  cbn [recover_loop]. unfold on_fst at 1 2.
  destruct (d_read_entry_mirror f) as [(f1 & e & -> & L & D & S1 & S2 & S3 & T)|(f1 & e & -> & S)].
  2: { destruct (read_entry_short [] ltac:(cbn; lia)) as (l' & e' & E).
       exists 0%nat, f1, w, (Ret count), l'. split; [lia|]. split; [done|]. split; [done|].
       by rewrite take_0, E. }
  assert (G : forall count' w', exists k f' w'' o x, (k <= length (frem f))%nat /\ same_but_pos f f' /\
      recover_loop fread fuel count' (f1, w') = ((f', w''), o) /\
      (exists l, d_read_entry lread (take k (frem f)) = (l, Ret e) /\
       recover_loop lread fuel count' (l, w') = ((x, w''), o))).
  { intros count' w'. destruct (IH count' f1 w') as (k & f' & w'' & o & x & Lk & (U1 & U2 & U3) & E1 & E2).
    rewrite D, drop_length in Lk. exists (18 + k)%nat, f', w'', o, x. split; [lia|].
    split; [unfold same_but_pos; repeat split; congruence|]. split; [done|].
    exists (take k (drop 18 (frem f))). split; [|by rewrite D in E2].
    rewrite <- take_take_drop. apply T. }
  destruct (negb _) eqn:Ev.
  - destruct (G count w) as (k & f' & w'' & o & x & Lk & S & E1 & (l & E2 & E3)).
    exists k, f', w'', o, x. do 3 (split; [done|]). rewrite E2. cbv zeta. by rewrite Ev.
  - unfold iobind, on_snd. destruct (d_write_entry fwrite e w) as [w1 ow] eqn:Ew.
    destruct ow as [[]|y| |].
    + destruct (G (u32 (count + 1)) w1) as (k & f' & w'' & o & x & Lk & S & E1 & (l & E2 & E3)).
      exists k, f', w'', o, x. do 3 (split; [done|]). rewrite E2, Ev, Ew. done.
    + exists 18%nat, f1, w1, (Err y). eexists. split; [done|]. split; [done|]. split; [done|].
      specialize (T []). rewrite app_nil_r in T. rewrite T, Ev, Ew. done.
    + exists 18%nat, f1, w1, Panic. eexists. split; [done|]. split; [done|]. split; [done|].
      specialize (T []). rewrite app_nil_r in T. rewrite T, Ev, Ew. done.
    + exists 18%nat, f1, w1, Hang. eexists. split; [done|]. split; [done|]. split; [done|].
      specialize (T []). rewrite app_nil_r in T. rewrite T, Ev, Ew. done.
Qed.

Definition zero_header : dheader := DHeader delta_version 0 0.

(** RecoverTo after the header has been read. *)
Definition recover_rest {R} (rd : reader R) (fuel : nat) (hdr : dheader) : io (R * file) unit :=
  run on_snd (d_write_header fwrite (DHeader delta_version 0 (dh_count hdr)));
  do recovered <- recover_loop rd fuel 0;
  if negb (dh_count hdr =? recovered) then
    run on_snd (fseek delta_prefix_len SeekStart);
    on_snd (d_write_header fwrite (DHeader delta_version 0 recovered))
  else ioret tt.

Lemma recover_to_eq {R} (rd : reader R) fuel r w :
  recover_to rd fuel (r, w) =
  match d_write_prefix fwrite w with
  | (w1, Ret _) =>
    match d_read_prefix rd r with
    | (r1, Ret _) =>
      match d_read_header rd r1 with
      | (r2, Ret hdr) => recover_rest rd fuel hdr (r2, w1)
      | (r2, Err _) => on_snd (d_write_header fwrite zero_header) (r2, w1)
      | (r2, Panic) => ((r2, w1), Panic)
      | (r2, Hang) => ((r2, w1), Hang)
      end
    | (r1, Err _) => on_snd (d_write_header fwrite zero_header) (r1, w1)
    | (r1, Panic) => ((r1, w1), Panic)
    | (r1, Hang) => ((r1, w1), Hang)
    end
  | (w1, Err e) => ((r, w1), Err e)
  | (w1, Panic) => ((r, w1), Panic)
  | (w1, Hang) => ((r, w1), Hang)
  end.
Proof.
  unfold recover_to, iobind at 1, on_snd at 1. destruct (d_write_prefix fwrite w) as [w1 [[]|e| |]]; try done.
  unfold on_fst at 1. destruct (d_read_prefix rd r) as [r1 [[]|e| |]]; try done.
  unfold on_fst at 1. destruct (d_read_header rd r1) as [r2 [h|e| |]]; done.
Qed.

Lemma recover_rest_mirror fuel hdr f w :
  exists k f' w' o x, (k <= length (frem f))%nat /\ same_but_pos f f' /\
    recover_rest fread fuel hdr (f, w) = ((f', w'), o) /\
    recover_rest lread fuel hdr (take k (frem f), w) = ((x, w'), o).
Proof.
  set (P := fun (k : nat) (a : (file * file) * outcome unit) (b : (list byte * file) * outcome unit) =>
    same_but_pos f (fst (fst a)) /\ snd (fst a) = snd (fst b) /\ snd a = snd b).
  enough (exists k, (k <= length (frem f))%nat /\
    P k (recover_rest fread fuel hdr (f, w)) (recover_rest lread fuel hdr (take k (frem f), w))) as (k & Lk & S & E1 & E2).
  { exists k. destruct (recover_rest fread _ _ _) as [[f' w'] o], (recover_rest lread _ _ _) as [[x w''] o']. cbn in *. subst.
    exists f', w'', o', x. done. }
  unfold recover_rest. unfold iobind at 1 4. unfold on_snd at 1 4.
  destruct (d_write_header fwrite (DHeader delta_version 0 (dh_count hdr)) w) as [w1 [[]|e| |]].
  2-4: exists 0%nat; split; [lia|done].
  destruct (recover_loop_mirror fuel 0 f w1) as (k & f' & w' & o & x & Lk & S & E1 & E2).
  exists k. split; [done|]. unfold iobind at 1 3. rewrite E1, E2.
  destruct o as [n|e| |]; [|done..]. destruct (negb _); [|done].
  unfold iobind, on_snd. destruct (fseek delta_prefix_len SeekStart w') as [w2 [z|e| |]]; [|done..].
  by destruct (d_write_header _ _ w2).
Qed.

Lemma recover_to_mirror fuel f w :
  exists k f' w' o x, (k <= length (frem f))%nat /\ same_but_pos f f' /\
    recover_to fread fuel (f, w) = ((f', w'), o) /\
    recover_to lread fuel (take k (frem f), w) = ((x, w'), o).
Proof.
  enough (exists k, (k <= length (frem f))%nat /\
    let a := recover_to fread fuel (f, w) in let b := recover_to lread fuel (take k (frem f), w) in
    same_but_pos f (fst (fst a)) /\ snd (fst a) = snd (fst b) /\ snd a = snd b) as (k & Lk & S & E1 & E2).
  { exists k. destruct (recover_to fread _ _) as [[f' w'] o], (recover_to lread _ _) as [[x w''] o']. cbn in *. subst.
    exists f', w'', o', x. done. }
  destruct (d_write_prefix fwrite w) as [w1 ow] eqn:Ew.
  destruct ow as [[]|y| |].
  2-4: exists 0%nat; split; [lia|]; cbv zeta; rewrite !recover_to_eq, Ew; done.
  destruct (read_full_mirror 8 f)
    as [(f1 & bs & E1 & L1 & D1 & A1 & A2 & A3 & T1)|(f1 & e & E1 & S)].
  2: { exists 0%nat. split; [lia|]. cbv zeta. rewrite !recover_to_eq, Ew.
       destruct (read_prefix_bad [] ltac:(done)) as (l' & e' & E). rewrite take_0, E.
       unfold d_read_prefix, iobind. change (length delta_prefix) with 8%nat. rewrite E1.
       unfold on_snd. by destruct (d_write_header _ _ w1). }
  assert (P1 : d_read_prefix fread f = if bool_decide (bs = delta_prefix) then (f1, Ret tt) else (f1, Err (EMsg "not a delta file"))).
  { unfold d_read_prefix, iobind. change (length delta_prefix) with 8%nat. rewrite E1. by destruct (bool_decide _). }
  assert (P2 : forall tail, d_read_prefix lread (take 8 (frem f) ++ tail) =
    if bool_decide (bs = delta_prefix) then (tail, Ret tt) else (tail, Err (EMsg "not a delta file"))).
  { intros tail. unfold d_read_prefix, iobind. change (length delta_prefix) with 8%nat. rewrite T1. by destruct (bool_decide _). }
  destruct (bool_decide (bs = delta_prefix)).
  2: { exists 8%nat. split; [done|]. cbv zeta. rewrite !recover_to_eq, Ew, P1.
       specialize (P2 []). rewrite app_nil_r in P2. rewrite P2.
       unfold on_snd. by destruct (d_write_header _ _ w1). }
  destruct (read_full_mirror 6 f1)
    as [(f2 & cs & E2 & L2 & D2 & B1 & B2 & B3 & T2)|(f2 & e & E2 & B1 & B2 & B3)].
  2: { exists 8%nat. split; [done|]. cbv zeta. rewrite !recover_to_eq, Ew, P1.
       specialize (P2 []). rewrite app_nil_r in P2. rewrite P2.
       destruct (read_header_short [] ltac:(cbn; lia)) as (e' & ->).
       unfold d_read_header, iobind. change (Z.to_nat delta_header_size) with 6%nat. rewrite E2.
       unfold on_snd. destruct (d_write_header _ _ w1). cbn. unfold same_but_pos. repeat split; congruence. }
  set (hdr := DHeader (be_dec (take 1 cs)) (be_dec (take 1 (drop 1 cs))) (be_dec (take 4 (drop 2 cs)))).
  assert (Q1 : d_read_header fread f1 = (f2, Ret hdr)).
  { unfold d_read_header, iobind. change (Z.to_nat delta_header_size) with 6%nat. by rewrite E2. }
  assert (Q2 : forall tail, d_read_header lread (take 6 (frem f1) ++ tail) = (tail, Ret hdr)).
  { intros tail. unfold d_read_header, iobind. change (Z.to_nat delta_header_size) with 6%nat. by rewrite T2. }
  destruct (recover_rest_mirror fuel hdr f2 w1) as (k & f' & w' & o & x & Lk & (C1 & C2 & C3) & R1 & R2).
  rewrite D1, drop_length in L2. rewrite D2, D1, !drop_length in Lk.
  exists (8 + (6 + k))%nat. split; [lia|]. cbv zeta. rewrite !recover_to_eq, Ew, P1, Q1, R1.
  rewrite <- take_take_drop, P2, <- D1, <- take_take_drop, Q2, <- D2, R2.
  cbn. unfold same_but_pos. repeat split; congruence.
Qed.

(** ** Recover *)

Lemma fwrite_cases bs f :
  (exists f', fwrite bs f = (f', (length bs, None)) /\ f_closed f = false /\
     f_data f' = f_data (fput bs f) /\ f_pos f' = f_pos (fput bs f) /\ f_kind f' = f_kind f /\ f_closed f' = f_closed f) \/
  exists f' n e, fwrite bs f = (f', (n, Some e)).
Proof.
  unfold fwrite. destruct (f_closed f) eqn:Ec; [right; eauto|].
  unfold next_fault. destruct (f_env f) as [|[|k] env] eqn:Ee.
  - left. exists (fput bs f). rewrite fput_kind, fput_closed. done.
  - left. eexists. split; [done|]. destruct bs; done.
  - right. eauto.
Qed.

(** A copy that succeeds has written everything. *)
Lemma copy_loop_faulty csz : (0 < csz)%nat ->
  forall fuel written t f t' f' n, healthy t -> (f_pos f <= length (f_data f))%nat ->
  copy_loop fread fwrite csz fuel written (t, f) = ((t', f'), Ret n) ->
  n = written + Z.of_nat (length (frem t)) /\ f_data f' = splice (f_pos f) (frem t) (f_data f) /\
  f_kind f' = f_kind f /\ f_closed f' = f_closed f.
Proof.
  intros Hc. induction fuel as [|fuel IH]; intros written t f t' f' n Ht Hp; [done|].
  cbn [copy_loop fst snd].
  destruct (decide (frem t = [])) as [Hnil|Hne].
  - destruct (lawful_eof _ _ _ _ fread_lawful csz t Ht) as (t1 & -> & _); [done|done|].
    intros [= <- <- <-]. rewrite Hnil, splice_nil by done. cbn. rewrite Z.add_0_r. done.
  - destruct (lawful_some _ _ _ _ fread_lawful csz t Ht) as (t1 & bs & -> & Hok & Hbs & Hlen & Hrem & _); [done|done|].
    destruct bs as [|b bs]; [done|].
    destruct (fwrite_cases (b :: bs) f) as [(f1 & -> & Ec & Ed & Ep & Ek & Ecl)|(f1 & k & e & ->)]; [|done].
    rewrite Nat.eqb_refl. cbn [negb]. intros E.
    rewrite fput_data in Ed by done. rewrite fput_pos in Ep.
    apply IH in E as (-> & E2 & E3 & E4); [|done|].
    2: { rewrite Ep, Ed, splice_length. lia. }
    rewrite E2, Hrem, Ed, Ep. split; [rewrite app_length; lia|]. split; [|split; congruence].
    by rewrite <- splice_app.
Qed.

Lemma d_recover_faulty csz f f' : (0 < csz)%nat -> f_closed f = false ->
  Forall is_byte (frem f) -> Z.of_nat (length (frem f)) < 2 ^ 32 * 18 ->
  d_recover csz f = (f', Ret tt) ->
  exists k, (k <= length (frem f))%nat /\ recovers_to (take k (frem f)) (f_data f').
Proof.
  intros Hc Hcl Hb Hl. unfold d_recover.
  destruct (recover_to_mirror (S (length (f_data f))) f (open_file KBuf []))
    as (k & f1 & tmp & o & x & Lk & (S1 & S2 & S3) & -> & E2).
  destruct (recovers_exists (take k (frem f))) as [out Hout].
  destruct (recover_to_ok lread _ _ _ lread_lawful KBuf (S (length (f_data f))) (take k (frem f)) out)
    as (x' & tmp' & E3 & _ & _ & Ht & Hk & Hd); [done|by apply Forall_take| | |done|].
  { rewrite take_length. unfold frem. rewrite drop_length. lia. }
  { rewrite take_length. lia. }
  rewrite E3 in E2. injection E2 as <- <- <-.
  intros E. exists k. split; [done|]. revert E.
  unfold iobind at 1, on_fst at 1. unfold fseek at 1. rewrite S3, Hcl. cbv zeta.
  assert (B : (match f_kind f1 with KBuf => (0 <? 0) || (Z.of_nat (length (f_data f1)) <? 0) | KOs => 0 <? 0 end) = false).
  { destruct (f_kind f1); [|done]. apply orb_false_iff. split; [done|]. apply Z.ltb_ge. lia. }
  rewrite B. change (Z.to_nat 0) with 0%nat. clear B.
  unfold iobind at 1, on_snd at 1. change 0 with (Z.of_nat 0) at 1.
  rewrite fseek_start_nat; [|done|right; lia].
  unfold iobind at 1.
  destruct (copy_loop _ _ _ _ _ _) as [[t2 f2] [n|e| |]] eqn:Ec; [|done..].
  apply copy_loop_faulty in Ec as (-> & D2 & K2 & C2); [|done|done|cbn; lia].
  assert (Er : frem (fset_pos 0 tmp') = out) by (unfold frem; cbn; by rewrite drop_0).
  rewrite Er in *. rewrite Z.add_0_l. cbn [fset_pos f_pos f_data f_kind f_closed] in *.
  unfold iobind, on_fst, ftruncate. rewrite C2, S3, Hcl.
  assert (Nf : exists x r, next_fault f2 = (x, File (f_kind f2) (f_data f2) (f_pos f2) (f_closed f2) r (f_log f2))).
  { unfold next_fault. destruct (f_env f2) as [|y r] eqn:Ef; [|by exists y, r]. exists FOk, []. rewrite <- Ef. by destruct f2. }
  destruct Nf as (y & r & ->). destruct y as [|y]; [|done]. cbn [f_kind f_data f_pos f_closed f_env f_log].
  rewrite C2, S3, Hcl.
  rewrite (proj2 (Z.ltb_ge _ 0)) by lia. rewrite Nat2Z.id.
  unfold fseek at 1. cbn [f_closed f_kind f_data f_pos].
  cbv zeta.
  match goal with |- context [if ?c then _ else _] => replace c with false end.
  2: { symmetry. destruct (f_kind f2); [|done]. apply orb_false_iff. split; [done|]. apply Z.ltb_ge. lia. }
  intros [= <-]. cbn. rewrite D2, resize_splice. done.
Qed.

(** One failing read at the start of a recovery. *)
Lemma d_recover_first_read_fails csz f n : (0 < csz)%nat -> (n < 8)%nat -> f_closed f = false -> f_env f = [FErr n] ->
  exists f', d_recover csz f = (f', Ret tt) /\ f_data f' = delta_image 0 [] /\ f_closed f' = false.
Proof.
  intros Hc Hn Hcl He. unfold d_recover. rewrite recover_to_eq.
  destruct (emits_prefix fwrite healthy (fun f => f) fwrite_lawful (open_file KBuf []) ltac:(done)) as (w & -> & Hw & ->).
  assert (E1 : exists f1, d_read_prefix fread f = (f1, Err EInjected) /\ healthy f1).
  { unfold d_read_prefix, iobind, read_full. change (length delta_prefix) with 8%nat.
    change (read_full_loop fread 8%nat 8%nat [] f) with
      (let '(r', (bs, e)) := fread 8%nat f in
       match e with
       | None => read_full_loop fread 7%nat 8%nat bs r'
       | Some e => if (8 <=? length bs)%nat then (r', Ret bs)
           else match e, bs with EEOF, _ :: _ => (r', Err EUnexpectedEOF) | _, _ => (r', Err e) end
       end).
    unfold fread, next_fault. rewrite Hcl, He. cbn [f_pos f_data].
    rewrite (proj2 (Nat.leb_gt 8 _)) by (rewrite take_length; lia).
    eexists. split; [reflexivity|]. done. }
  destruct E1 as (f1 & -> & Hh1).
  unfold on_snd at 1.
  destruct (emits_header fwrite healthy (fun f => f) fwrite_lawful zero_header _ Hw) as (w2 & -> & Hw2 & Ew2).
  assert (Hd : f_data w2 = delta_image 0 []) by (rewrite Ew2; reflexivity). clear Ew2.
  set (out := delta_image 0 []) in *.
  unfold iobind at 1, on_fst at 1.
  change 0 with (Z.of_nat 0) at 1. rewrite fseek_start_nat; [|done|right; lia].
  unfold iobind at 1, on_snd at 1.
  change 0 with (Z.of_nat 0) at 1. rewrite fseek_start_nat; [|done|right; lia].
  unfold iobind at 1.
  destruct (copy_loop_ok fread healthy frem fframe csz fread_lawful Hc
    (S (length (f_data (fset_pos 0 w2)))) 0 (fset_pos 0 w2) (fset_pos 0 f1)) as (t' & -> & _); try done.
  { unfold frem. cbn [fset_pos f_pos f_data]. rewrite drop_0. lia. }
  assert (frem (fset_pos 0 w2) = out) as -> by (unfold frem; cbn; by rewrite drop_0).
  set (f2 := fput out (fset_pos 0 f1)).
  assert (Hh2 : healthy f2) by (by apply fput_healthy).
  rewrite Z.add_0_l.
  unfold iobind, on_fst, ftruncate. destruct Hh2 as [Hc2 He2]. rewrite Hc2. unfold next_fault. rewrite He2.
  rewrite (proj2 (Z.ltb_ge _ 0)) by lia. rewrite Nat2Z.id.
  change 0 with (Z.of_nat 0) at 1. rewrite fseek_start_nat by (done || (right; cbn; lia)).
  eexists. split; [reflexivity|]. split; [|done]. cbn [fset_pos f_data].
  unfold f2. rewrite fput_data by (cbn; lia). cbn [fset_pos f_pos f_data]. apply resize_splice.
Qed.
